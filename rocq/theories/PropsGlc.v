(** * PropsGlc: the recorded results of the Katowice-Gliwice line, and the penalties of its script (C81, C83) *)

From Coq Require Import List String ZArith NArith QArith Bool Lia Lqa.
From Verif Require Import Base BaseFacts Pulp Helpers LinearSolver Converters Results DataTables DataSets DataTimes Pipeline Runs
  Spec SpecTables SpecSets SpecEnd SpecQubo SpecNames SpecResults SpecMinutes SpecRuns SpecRecords Created Check Accept QuboModel Interp EndFacts MinuteFacts
  RealData PropsReal PropsTotal PropsRuns PropsResults PropsMinutes PropsRecorded PropsShippedRuns PropsCheap
  BoundCheck GlcRecords GlcFacts GlcLine3 GlcCheck3.
Import ListNotations.
Open Scope string_scope.
Open Scope list_scope.

(** ** One scenario that passes its checks *)

Lemma plan_optimal p s : consistent p -> (forall v, occurs p v -> v_cat v = Integer) -> scenario_okb p s = true ->
  optimal p (plan_of p (sc_plan s)).
Proof.
  intros HC HI. unfold scenario_okb. cbv zeta. rewrite !andb_true_iff. intros (_ & _ & F & V & B1 & B).
  split; [apply run_okb_ok, F|]. intros x' F'. pose proof (bounded_ok p (sc_cert s) (sc_bound s) x' HC HI B F') as L.
  apply Qeq_bool_iff in V, B1. assert (P : 0 < inject_Z (Zpos (ce_scale (sc_cert s)))) by reflexivity.
  revert V B1 L P. generalize (inject_Z (Zpos (ce_scale (sc_cert s)))) (inject_Z (sc_bound s)) (sc_value s) (obj_value p x') (obj_value p (plan_of p (sc_plan s))).
  clear. intros k b v y z V B L P. rewrite <- V in B. apply (Qmult_le_l _ _ _ P). lra.
Qed.

Lemma scenario_facts ts tt p s : reserved_free ts -> create_linear_problem ts tt 40 Integer = Ok p -> scenario_okb p s = true ->
  sizes p = sc_sizes s /\ leaves_room p /\ optimal p (plan_of p (sc_plan s)) /\ obj_value p (plan_of p (sc_plan s)) * 40 == sc_value s.
Proof.
  intros RF Cr H. pose proof (plan_optimal p s (created_consistent _ _ _ _ _ RF Cr)
    ltac:(intros v Hv; destruct (created_bounds _ _ _ _ _ RF Cr v Hv) as [_ [[_ C]|[_ C]]]; exact C) H) as O.
  revert H. unfold scenario_okb. cbv zeta. rewrite !andb_true_iff. intros (S & R & F & V & _).
  split; [|split; [|split; [exact O|apply Qeq_bool_iff, V]]].
  - unfold sizes_okb in S. destruct (fast_sizes p) as [s'|] eqn:E; [|discriminate S]. apply fast_sizes_ok in E. rewrite E.
    rewrite !andb_true_iff, !N.eqb_eq in S. destruct S as (S1 & S2 & S3). destruct s' as [[a b] c]. destruct (sc_sizes s) as [[a' b'] c'].
    cbn [fst snd] in *. congruence.
  - apply (room_ok ts tt 40 p RF Cr); [exists 40%Z; reflexivity|reflexivity|exact R].
Qed.

Lemma line3_recorded : map sc_sizes line3 = recorded_sizes 3 /\ map sc_value line3 = recorded_objectives 3.
Proof. split; reflexivity. Qed.

Lemma line3_all data st td : In (3%Z, data, st) glc_cases -> build_timetables data st network = Ok td ->
  on_line scenario_okb 3 st line3 td = true.
Proof.
  pose proof line3_ok as L3. intros I E. unfold glc_cases in I. destruct I as [I|[I|[I|[]]]]; try discriminate I. injection I as <- <-.
  rewrite E in L3. exact L3.
Qed.

Lemma glc_shipped case data st : In (case, data, st) glc_cases ->
  (case = 1%Z \/ case = 2%Z \/ case = 3%Z) /\ In (data, st, "14:00") shipped.
Proof.
  intros I. unfold glc_cases in I. destruct I as [I|[I|[I|[]]]]; injection I as <- <- <-; (split; [auto|]);
    unfold shipped; do 4 right; [left|right; left|right; right; left]; reflexivity.
Qed.

Lemma nth_map {A B} (f : A -> B) l k b : nth_error (map f l) k = Some b -> exists a, nth_error l k = Some a /\ f a = b.
Proof.
  revert l. induction k as [|k IH]; intros [|a l]; cbn; try discriminate; [intros H; injection H as <-; exists a; auto|apply IH].
Qed.

(** ** C83: the recorded sizes and objectives *)

(** The problem that is built for a scenario of line 3 has the recorded numbers of variables and constraints, and its least
    objective is the recorded one. *)
Theorem C83_optima_partial : forall case data st td k dist ts tt p,
  In (case, data, st) glc_cases -> case = 3%Z -> build_timetables data st network = Ok td ->
  nth_error (disturbances case (map PInt (dkeys td))) k = Some dist ->
  tables_to_problem td st network "14:00" dist 40 Integer = Ok (ts, tt, p) ->
  (forall s, nth_error (recorded_sizes case) k = Some s -> has_sizes p s) /\
  (forall q, nth_error (recorded_objectives case) k = Some q -> exists x, optimal p x /\ obj_value p x * 40 == q).
Proof.
  intros case data st td k dist ts tt p I C E Nd H. subst case. destruct (glc_shipped _ _ _ I) as [_ S].
  destruct (C69_shipped data st "14:00" S) as (td' & E' & T & _). assert (td' = td) by congruence. subst td'. clear E'.
  pose proof (reserved_ok _ _ _ _ _ _ _ _ _ _ T H) as RF. pose proof (proj1 (parts _ _ _ _ _ _ _ _ _ _ H)) as Cr.
  pose proof (line3_all data st td I E) as A.
  assert (HS : forall s, sizes p = s -> has_sizes p s) by (intros s <-; unfold has_sizes, sizes; destruct (count_vars p) as [[a b] c]; auto).
  assert (K : forall s, nth_error line3 k = Some s -> scenario_okb p s = true).
  { intros s N. exact (on_line_ok _ _ _ _ _ _ _ _ _ _ _ A Nd N H). }
  destruct line3_recorded as [R1 R2]. rewrite <- R1, <- R2. split.
  - intros s N. apply nth_map in N as (sc & N & <-). apply HS. exact (proj1 (scenario_facts _ _ _ _ RF Cr (K sc N))).
  - intros q N. apply nth_map in N as (sc & N & <-). destruct (scenario_facts _ _ _ _ RF Cr (K sc N)) as (_ & _ & X & V).
    exists (plan_of p (sc_plan sc)). split; [exact X|exact V].
Qed.
Print Assumptions C83_optima_partial.

Lemma all_nth {A B} (P : A -> B -> Prop) l l' : List.length l = List.length l' ->
  (forall k a b, nth_error l k = Some a -> nth_error l' k = Some b -> P a b) -> Forall2 P l l'.
Proof.
  revert l'. induction l as [|a l IH]; intros [|b l'] L H; try discriminate L; [constructor|]. constructor.
  - apply (H 0%nat); reflexivity.
  - apply IH; [cbn in L; congruence|]. intros k. apply (H (S k)).
Qed.

Lemma forall2_nth {A B} (P : A -> B -> Prop) l l' k b : Forall2 P l l' -> nth_error l' k = Some b -> exists a, nth_error l k = Some a /\ P a b.
Proof.
  intros F. revert k. induction F as [|a b' l l' H F IH]; intros [|k] N; try discriminate N; [|apply IH, N].
  cbn in N. injection N as <-. exists a. split; [reflexivity|exact H].
Qed.

Lemma recorded_lengths case : case = 1%Z \/ case = 2%Z \/ case = 3%Z ->
  List.length (recorded_sizes case) = 12%nat /\ List.length (recorded_objectives case) = 12%nat.
Proof. intros [->|[->| ->]]; split; reflexivity. Qed.

(** Run with any exact solver on line 3, solve_KO_GLC_problems.py records the sizes and objectives in the files of the
    repository. *)
Theorem C83_reproduced_partial : forall case data st td solver results,
  In (case, data, st) glc_cases -> case = 3%Z -> build_timetables data st network = Ok td -> exact_solver solver ->
  glc_runs td st network case Integer (WithLp solver) = Ok results ->
  Forall2 records_sizes results (recorded_sizes case) /\
  Forall2 records_objective results (recorded_objectives case).
Proof.
  intros case data st td solver results I C3 E EX H. destruct (glc_shipped _ _ _ I) as [C S].
  destruct (C69_shipped data st "14:00" S) as (td' & E' & T & _). assert (td' = td) by congruence. subst td'. clear E'.
  destruct (all_scenarios _ _ _ _ _ _ _ T H) as (skip & ts & Hs & Hts & F). clear H.
  destruct (recorded_lengths case C) as [L1 L2].
  assert (LR : List.length results = 12%nat).
  { pose proof (proj1 (C79_scenarios case (dkeys td))) as L. rewrite <- L. clear - F. induction F; cbn [List.length]; congruence. }
  assert (K : forall k r, nth_error results k = Some r ->
    (forall s, nth_error (recorded_sizes case) k = Some s -> records_sizes r s) /\
    (forall q, nth_error (recorded_objectives case) k = Some q -> records_objective r q)).
  { intros k r N. destruct (forall2_nth _ _ _ _ _ F N) as (dist & Nd & G).
    destruct (scenario_parts td st network "14:00" 40 Integer _ dist skip ts r Hs Hts G) as (tt & p & TP & _ & CV & x & SX & O & FE).
    destruct (C83_optima_partial case data st td k dist ts tt p I C3 E Nd TP) as [P1 P2]. split.
    - intros s Ns. specialize (P1 s Ns). unfold has_sizes in P1. rewrite <- CV in P1. exact P1.
    - intros q Nq. destruct (P2 q Nq) as (x' & [F' O'] & V). destruct (EX p x SX) as [Fx Ox].
      exists (obj_value p x * 40). split; [exact O|]. split; [|exact FE]. specialize (O' x Fx). specialize (Ox x' F'). lra. }
  split; (apply all_nth; [congruence|]); intros k a b Na Nb; [apply (proj1 (K k a Na)), Nb|apply (proj2 (K k a Na)), Nb].
Qed.
Print Assumptions C83_reproduced_partial.


(** The plans make an exact solver: it answers for the problems whose certificate passes. *)
Definition option_q_dec : forall a b : option Q, {a = b} + {a <> b}.
Proof. decide equality. decide equality; [apply Pos.eq_dec|apply Z.eq_dec]. Defined.
Definition vcat_dec : forall a b : vcat, {a = b} + {a <> b}.
Proof. decide equality. Defined.

Definition consistentb (p : lpproblem) : bool :=
  forallb (fun v => (if vcat_dec (v_cat v) Integer then true else false) && forallb (fun w =>
    if String.eqb (v_name v) (v_name w) then
      (if option_q_dec (v_lo v) (v_lo w) then true else false) && ((if option_q_dec (v_up v) (v_up w) then true else false) &&
      (if vcat_dec (v_cat v) (v_cat w) then true else false))
    else true) (occurring p)) (occurring p).

Lemma consistentb_iff p : consistentb p = true <-> consistent p /\ forall v, occurs p v -> v_cat v = Integer.
Proof.
  unfold consistentb. rewrite forallb_forall. split.
  - intros H. split.
    + intros v w Ov Ow N. apply occurring_in in Ov, Ow. specialize (H v Ov). apply andb_true_iff in H as [_ H]. rewrite forallb_forall in H.
      specialize (H w Ow). rewrite N, String.eqb_refl in H. rewrite !andb_true_iff in H.
      destruct (option_q_dec (v_lo v) (v_lo w)), (option_q_dec (v_up v) (v_up w)), (vcat_dec (v_cat v) (v_cat w)); intuition discriminate.
    + intros v Ov. apply occurring_in in Ov. specialize (H v Ov). apply andb_true_iff in H as [H _]. destruct (vcat_dec (v_cat v) Integer); [assumption|discriminate].
  - intros [C I] v Ov. apply occurring_in in Ov. rewrite (I v Ov). destruct (vcat_dec Integer Integer); [|congruence]. cbn [andb].
    apply forallb_forall. intros w Ow. apply occurring_in in Ow. destruct (String.eqb_spec (v_name v) (v_name w)) as [N|]; [|reflexivity].
    destruct (C v w Ov Ow N) as (H1 & H2 & H3). rewrite (I v Ov) in H3.
    destruct (option_q_dec (v_lo v) (v_lo w)), (option_q_dec (v_up v) (v_up w)), (vcat_dec Integer (v_cat w)); try reflexivity; contradiction.
Qed.

Definition certified_solver (l : list scenario) (p : lpproblem) : option assignment :=
  if consistentb p then match find (scenario_okb p) l with Some s => Some (plan_of p (sc_plan s)) | None => None end else None.

Lemma certified_exact l : exact_solver (certified_solver l).
Proof.
  intros p x. unfold certified_solver. destruct (consistentb p) eqn:C; [|discriminate]. apply consistentb_iff in C as [C I].
  destruct (find (scenario_okb p) l) as [s|] eqn:F; [|discriminate]. intros H. injection H as <-. apply find_some in F as [_ F].
  exact (plan_optimal p s C I F).
Qed.

Lemma solved_done td st case solver : tidy td st -> named_run case td = true ->
  (forall dist, exists ts tt p, tables_to_problem td st network "14:00" dist 40 Integer = Ok (ts, tt, p) /\
     (In dist (disturbances case (map PInt (dkeys td))) -> exists x, solver p = Some x /\ exists s, check_count_vars p x = Ok s)) ->
  exists results, glc_runs td st network case Integer (WithLp solver) = Ok results.
Proof.
  intros T N B. unfold glc_runs. destruct (B []) as (ts0 & tt0 & p0 & H0 & _). unfold tables_to_problem in H0.
  destruct (get_skip_stations td) as [skip|] eqn:Es; [|discriminate H0]. cbn [bind] in *.
  destruct (make_train_set td st network skip) as [ts|] eqn:Et; [|discriminate H0]. cbn [bind] in *. clear H0 ts0 tt0 p0.
  assert (EJ : ts_J ts = map PInt (dkeys td)).
  { unfold make_train_set in Et. inv_bind Et. inv_bind Et. inv_bind Et. inv_bind Et. inv_bind Et. inversion Et; subst. reflexivity. }
  rewrite EJ. unfold named_run in N. rewrite forallb_forall in N. apply TimeFacts.mapM_total. intros dist ID. pose proof (N _ ID) as I.
  unfold glc_scenario. destruct (B dist) as (ts1 & tt1 & p1 & H1 & SV). specialize (SV ID). unfold tables_to_problem in H1. rewrite Es in H1. cbn [bind] in H1.
  rewrite Et in H1. cbn [bind] in H1. destruct (make_timetable td st skip "14:00" None) as [tt|] eqn:Em; [|discriminate H1]. cbn [bind] in *. cbv zeta in H1.
  assert (D : forall t, foldM (fun t iq => if lmem (PInt (fst iq)) (ts_J ts) then Ok (with_delays [iq] t) else Err AssertionError) dist t = Ok (with_delays dist t)).
  { rewrite EJ. clear - I. induction dist as [|[i q] dist IH]; intros t; [destruct t; reflexivity|]. cbn [forallb fst] in I. apply andb_true_iff in I as [I1 I2].
    cbn [foldM fst]. assert (M : lmem (PInt i) (map PInt (dkeys td)) = true) by (apply lmem_true, in_map, lmem_true; exact I1).
    rewrite M. cbn [bind]. rewrite (IH I2). reflexivity. }
  rewrite D. cbn [bind]. destruct (create_linear_problem ts (with_delays dist tt) 40 Integer) as [p|]; [|discriminate H1]. cbn [bind].
  cbn [bind] in H1. inversion H1; subst. destruct SV as (x & SV & s & CC). rewrite SV, CC. cbn [bind].
  destruct (count_vars p1) as [[a b] c]. eauto.
Qed.

Example C83_case : forall case data st, In (case, data, st) glc_cases -> case = 3%Z ->
  exists td results, build_timetables data st network = Ok td /\ exact_solver (certified_solver line3) /\
    glc_runs td st network case Integer (WithLp (certified_solver line3)) = Ok results.
Proof.
  intros case data st I C3. subst case. destruct (glc_shipped _ _ _ I) as [C S].
  destruct (C69_shipped data st "14:00" S) as (td & E & T & CM & NP & _ & B).
  pose proof glc_named as N. rewrite forallb_forall in N. specialize (N _ I). cbn beta iota in N. apply if_read_ok in N as (td' & E' & N).
  assert (td' = td) by congruence. subst td'. clear E'. destruct line3_recorded as [R1 _].
  pose proof (line3_all data st td I E) as A.
  destruct (solved_done td st 3 (certified_solver line3) T N) as (results & R).
  { intros dist. destruct (B dist 40 Integer) as (ts & tt & p & H); [intros Q; discriminate Q|]. exists ts, tt, p. split; [exact H|]. intros ID.
    apply In_nth_error in ID as (k & Nd).
    pose proof (reserved_ok _ _ _ _ _ _ _ _ _ _ T H) as RF. destruct (parts _ _ _ _ _ _ _ _ _ _ H) as [Cr M].
    assert (LD : (k < 12)%nat) by (rewrite <- (proj1 (C79_scenarios 3 (dkeys td))); apply nth_error_Some; rewrite Nd; discriminate).
    destruct (nth_error line3 k) as [sc|] eqn:Ns.
    2:{ exfalso. apply nth_error_None in Ns. assert (L : List.length line3 = 12%nat).
        { rewrite <- (map_length sc_sizes), R1. apply (recorded_lengths 3 C). } lia. }
    pose proof (on_line_ok _ _ _ _ _ _ _ _ _ _ _ A Nd Ns H) as K.
    assert (CB : consistentb p = true).
    { apply consistentb_iff. split; [exact (created_consistent _ _ _ _ _ RF Cr)|].
      intros v Hv. destruct (created_bounds _ _ _ _ _ RF Cr v Hv) as [_ [[_ Cv]|[_ Cv]]]; exact Cv. }
    destruct (find (scenario_okb p) line3) as [s|] eqn:F.
    - exists (plan_of p (sc_plan s)). unfold certified_solver. rewrite CB, F. split; [reflexivity|].
      pose proof (certified_exact line3 p (plan_of p (sc_plan s))) as X. unfold certified_solver in X. rewrite CB, F in X. destruct (X eq_refl) as [FX _].
      assert (YZ : forall j, In j (ts_J ts) -> ~ ends_yz j).
      { destruct M as (_ & _ & EJ & _). rewrite EJ. unfold trains. intros j J. apply in_map_iff in J as (z & <- & _). apply number_not_yz. }
      destruct (C50_counts_partial ts tt 40 Integer p RF (w_plain _ _ _ _ _ _ _ T CM NP (proj2 (parts _ _ _ _ _ _ _ _ _ _ H))) Cr YZ) as (a & b & _ & _ & _ & _ & CC).
      exists (count_vars p). apply CC, FX.
    - exfalso. pose proof (find_none _ _ F sc (nth_error_In _ _ Ns)). congruence. }
  exists td, results. split; [exact E|]. split; [apply certified_exact|exact R].
Qed.

(** ** C81: the penalties of the script suffice on line 3 *)

Definition minutes_ok (case : Z) (td : train_dict) : bool :=
  whole_turnsb td && forallb (forallb (fun iq => is_intb (snd iq))) (disturbances case (map PInt (dkeys td))).

Lemma glc_minutes : forallb (fun c => let '(case, data, st) := c in if_read (build_timetables data st network) (minutes_ok case)) glc_cases = true.
Proof. vm_cast_no_check (eq_refl true). Qed.

Lemma cheap_value : forallb (fun q => negb (Qle_bool 100 q)) (recorded_objectives 3) = true.
Proof. reflexivity. Qed.

Theorem C81_lines_partial : forall case data st td k dist ts tt p,
  In (case, data, st) glc_cases -> case = 3%Z -> build_timetables data st network = Ok td ->
  nth_error (disturbances case (map PInt (dkeys td))) k = Some dist ->
  tables_to_problem td st network "14:00" dist 40 Integer = Ok (ts, tt, p) ->
  exists b interp, convert_to_bqm p (script_pdict (5 # 2)) = Ok (b, interp) /\
    (forall s e d, ground b s -> interp [(s, e)] = Ok [(d, e)] -> optimal p (values d)) /\
    (forall x, optimal p x -> exists s d, ground b s /\ (forall e, interp [(s, e)] = Ok [(d, e)]) /\
       forall v, occurs p v -> values d (v_id v) == x (v_id v)).
Proof.
  intros case data st td k dist ts tt p I C3 E Nd H. subst case. destruct (glc_shipped _ _ _ I) as [C S].
  destruct (C69_shipped data st "14:00" S) as (td' & E' & T & CM & NP & _). assert (td' = td) by congruence. subst td'. clear E'.
  pose proof glc_minutes as M. rewrite forallb_forall in M. specialize (M _ I). cbn beta iota in M. apply if_read_ok in M as (td' & E' & M).
  assert (td' = td) by congruence. subst td'. clear E'. unfold minutes_ok in M. apply andb_true_iff in M as [W D].
  apply whole_turnsb_ok in W. rewrite forallb_forall in D.
  assert (WD : whole_delays dist).
  { specialize (D dist (nth_error_In _ _ Nd)). rewrite forallb_forall in D. intros i q J. apply is_intb_ok. exact (D (i, q) J). }
  pose proof (reserved_ok _ _ _ _ _ _ _ _ _ _ T H) as RF. pose proof (proj1 (parts _ _ _ _ _ _ _ _ _ _ H)) as Cr.
  pose proof (line3_all data st td I E) as A. destruct line3_recorded as [R1 R2].
  assert (LD : (k < 12)%nat) by (rewrite <- (proj1 (C79_scenarios 3 (dkeys td))); apply nth_error_Some; rewrite Nd; discriminate).
  destruct (nth_error line3 k) as [sc|] eqn:Ns.
  2:{ exfalso. apply nth_error_None in Ns. assert (L : List.length line3 = 12%nat).
      { rewrite <- (map_length sc_sizes), R1. apply (recorded_lengths 3 C). } lia. }
  pose proof (on_line_ok _ _ _ _ _ _ _ _ _ _ _ A Nd Ns H) as K. clear A.
  destruct (scenario_facts _ _ _ _ RF Cr K) as (SZ & LR & [F OP] & V).
  assert (Q : sc_value sc < 100).
  { pose proof cheap_value as Q. rewrite <- R2, forallb_forall in Q.
    specialize (Q _ (in_map sc_value _ _ (nth_error_In _ _ Ns))). apply negb_true_iff in Q.
    destruct (Qlt_le_dec (sc_value sc) 100) as [L|L]; [exact L|]. apply Qle_bool_iff in L. congruence. }
  assert (HV : exists v, In v (variables p)).
  { destruct (variables p) as [|v l] eqn:EV; [exfalso|exists v; left; reflexivity].
    assert (Z : sc_sizes sc = (0, 0, N.of_nat (List.length (p_constraints p)))%N).
    { rewrite <- SZ. unfold sizes, count_vars. rewrite EV. reflexivity. }
    assert (Y : In (sc_sizes sc) (recorded_sizes 3)) by (rewrite <- R1; apply in_map, (nth_error_In _ _ Ns)).
    rewrite Z in Y. clear - Y. cbn in Y; repeat (destruct Y as [Y|Y]; [discriminate Y|]); exact Y. }
  destruct (proj2 (created_accepted _ _ _ _ (script_pdict (5 # 2)) RF Cr (made_integral _ _ _ _ _ _ _ W WD (proj2 (parts _ _ _ _ _ _ _ _ _ _ H)))
     (ex_intro _ 40%Z (Qeq_refl 40)) eq_refl HV (script_complete (5 # 2))) LR) as (b & interp & B).
  exists b, interp. split; [exact B|].
  apply (C81_cheap_plan td st network "14:00" dist 40 (5 # 2) ts tt p b interp T CM NP W WD (ex_intro _ 40%Z (Qeq_refl 40)) eq_refl H B).
  exists (plan_of p (sc_plan sc)). split; [exact F|]. lra.
Qed.
Print Assumptions C81_lines_partial.
