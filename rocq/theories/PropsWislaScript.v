(** * PropsWislaScript: what wisla_problems.py stores and shows (C88) *)

From Coq Require Import List String Ascii ZArith QArith Bool Lia Lqa Permutation.
From Verif Require Import Base BaseFacts Pulp Helpers LinearSolver Converters Results DataTimes Pipeline Runs Script
  Spec SpecFacts SpecDurations SpecQubo SpecNames SpecCompare SpecResults SpecScript Created Check Accept Integral Objective Names DelayVars Rules Builds HelperFacts ResultFacts
  QuboModel GlcFacts EndFacts Compare PropsVars PropsBuild PropsCompare PropsQubo PropsResults PropsPrint PropsSchedule PropsCqm PropsCheap PropsScript Optimum PropsTurns PropsReached WislaData PropsWisla WislaScript.
From Verif Require TimeFacts QuboFacts.
Import ListNotations.
Open Scope string_scope.
Open Scope list_scope.
Open Scope Q_scope.

(** ** The problem *)

Lemma wisla_plain : plain_names wisla_ts.
Proof. apply plain_namesb_ok. vm_compute. reflexivity. Qed.

Lemma wisla_integral : integral_times wisla_tt.
Proof.
  split; [|split; [|split; [|split; [|split; [|split]]]]];
    try (apply values_int; vm_compute; reflexivity). intros q X. discriminate X.
Qed.

Lemma wisla_weights : nonneg_weights wisla_tt.
Proof.
  intros k w G. apply dget_in in G. cbn in G. repeat (destruct G as [G|G]; [injection G as _ <-; lra|]). destruct G.
Qed.

Lemma wisla_whole : is_int wisla_d_max.
Proof. exists 10%Z. reflexivity. Qed.

Lemma wisla_positive : 0 < wisla_d_max.
Proof. reflexivity. Qed.

Lemma wisla_variables : exists v, In v (variables wisla_p).
Proof.
  assert (V : match variables wisla_p with [] => false | _ => true end = true) by (vm_compute; reflexivity).
  destruct (variables wisla_p) as [|v l]; [discriminate V|exists v; left; reflexivity].
Qed.

Lemma wisla_room : leaves_room wisla_p.
Proof. apply (room_ok wisla_ts wisla_tt wisla_d_max wisla_p wisla_reserved wisla_built wisla_whole wisla_positive). vm_compute. reflexivity. Qed.

Lemma wisla_complete : all_penalties wisla_pdict.
Proof. intros r I. cbn in I |- *. tauto. Qed.

(** ** C88 *)

(** The QUBO made with the penalties of the script (10, and only 4 for the turnaround) exists, its samples of least energy decode
    to optimal plans, and every optimal plan is decoded from one of them. *)
Theorem C88_penalties : exists p b interp,
  create_linear_problem wisla_ts wisla_tt wisla_d_max Integer = Ok p /\ convert_to_bqm p wisla_pdict = Ok (b, interp) /\
  (forall s e d, ground b s -> interp [(s, e)] = Ok [(d, e)] -> optimal p (values d)) /\
  (forall x, optimal p x -> exists s d, ground b s /\ (forall e, interp [(s, e)] = Ok [(d, e)]) /\
     forall v, occurs p v -> values d (v_id v) == x (v_id v)).
Proof.
  destruct (proj2 (created_accepted wisla_ts wisla_tt wisla_d_max wisla_p wisla_pdict wisla_reserved wisla_built wisla_integral wisla_whole wisla_positive
    wisla_variables wisla_complete) wisla_room) as (b & i & HC).
  exists wisla_p, b, i. split; [exact wisla_built|]. split; [exact HC|].
  apply (cheap_exact wisla_ts wisla_tt wisla_d_max wisla_p wisla_pdict b i wisla_best wisla_reserved wisla_plain wisla_integral wisla_whole wisla_positive
    wisla_weights wisla_built HC); [reflexivity|exact wisla_best_feasible|].
  intros r I. rewrite (proj2 C73_optimum). cbn in I.
  repeat (destruct I as [<-|I]; [vm_compute; reflexivity|]). destruct I.
Qed.
Print Assumptions C88_penalties.

(** ** Printing *)

Definition wisla_timed : bool :=
  forallb (fun j => match dget j (ts_Paths wisla_ts) with
                    | Some path => nodupb path && forallb (fun s => is_ok (earliest_dep_time (ts_Paths wisla_ts) wisla_tt j s)) path
                    | None => false end) (ts_J wisla_ts).

Lemma wisla_timed_ok : wisla_timed = true.
Proof. vm_compute. reflexivity. Qed.

Lemma wisla_path j : In j (ts_J wisla_ts) -> exists path, dget j (ts_Paths wisla_ts) = Some path /\ NoDup path /\
  forall s, In s path -> exists e, earliest_dep_time (ts_Paths wisla_ts) wisla_tt j s = Ok e.
Proof.
  intros I. pose proof wisla_timed_ok as W. unfold wisla_timed in W. rewrite forallb_forall in W. specialize (W j I).
  destruct (dget j (ts_Paths wisla_ts)) as [path|]; [|discriminate W]. apply andb_true_iff in W as [N W]. rewrite forallb_forall in W.
  exists path. split; [reflexivity|]. split; [apply nodupb_ok; exact N|]. intros s Is. specialize (W s Is).
  destruct (earliest_dep_time (ts_Paths wisla_ts) wisla_tt j s) as [e|]; [eauto|discriminate W].
Qed.

Lemma wisla_prints p x value : create_linear_problem wisla_ts wisla_tt wisla_d_max Integer = Ok p ->
  (forall v, In v (variables p) -> value v = Some (x (v_id v))) -> exists sched, wisla_print p value = Ok sched.
Proof.
  intros Cr HV. unfold wisla_print, print_optimisation_results.
  pose proof wisla_reserved as RF. pose proof wisla_plain as PN.
  destruct (foldM_total (fun _ : dict pv (dict pv stop_entry) => True) (fun sched_dict j =>
    do path <- dlookup j (ts_Paths wisla_ts);
    do r <- foldM (print_stop p wisla_tt wisla_ts (tt_pass wisla_tt) (skip_of wisla_ts) wisla_d_max wisla_t_ref value j) path (PInt 0, 0, 0, []);
    Ok (dset j (snd r) sched_dict)) (ts_J wisla_ts) []) as (r & E & _); [exact Logic.I| |exists r; exact E].
  intros acc j Ij _. destruct (wisla_path j Ij) as (path & G & ND & ED). unfold dlookup. rewrite G. cbn [bind].
  destruct (foldM_total (fun _ : print_state => True) (print_stop p wisla_tt wisla_ts (tt_pass wisla_tt) (skip_of wisla_ts) wisla_d_max wisla_t_ref value j) path (PInt 0, 0, 0, []))
    as (r & E & _); [exact Logic.I| |].
  2:{ rewrite E. cbn [bind]. eexists. split; [reflexivity|exact Logic.I]. }
  intros [[[sp dp] dc] sc] s Is _. unfold print_stop. destruct (match dget _ (tt_pass wisla_tt) with Some q => _ | None => _ end) as [ar ca].
  destruct (match dget j (skip_of wisla_ts) with Some _ => _ | None => _ end); [eexists; split; [reflexivity|exact Logic.I]|].
  unfold impact_to_objective, delay_and_acctual_time.
  rewrite (find_delay wisla_ts wisla_tt wisla_d_max Integer p RF PN Cr j s).
  2:{ unfold mentioned_trains. apply in_app_iff. auto. }
  2:{ unfold mentioned_stations. rewrite in_app_iff. left. apply in_concat. exists path. split; [apply dget_in in G; apply (in_map snd) in G; exact G|exact Is]. }
  destruct (lmem (delay_id (j, s)) (map v_id (variables p))) eqn:M; [|cbn [bind]; eexists; split; [reflexivity|exact Logic.I]].
  apply lmem_true in M. apply in_map_iff in M as (v & EV & Hv). pose proof (HV v Hv) as VV.
  assert (v = delay_var_of j s wisla_d_max Integer).
  { destruct (C13_delay_variables wisla_ts wisla_d_max Integer RF) as [_ K]. destruct (K wisla_tt p Cr v Hv) as (j' & s' & _ & ->); [unfold v_id in EV; unfold delay_id in EV; congruence|].
    unfold v_id, delay_id in EV. cbn in EV. inversion EV; subst. reflexivity. }
  subst v. rewrite VV. cbn [bind]. change (Qeq_bool wisla_d_max 0) with false. cbn [bind].
  destruct (ED s Is) as (e & ->). cbn [bind]. eexists; split; [reflexivity|exact Logic.I].
Qed.

Lemma wisla_shows p x value sched : create_linear_problem wisla_ts wisla_tt wisla_d_max Integer = Ok p ->
  (forall v, In v (variables p) -> value v = Some (x (v_id v))) -> wisla_print p value = Ok sched ->
  shows_plan wisla_ts wisla_tt p x 480 sched.
Proof.
  intros Cr V1 Pe j path Ij Gj. destruct (wisla_path j Ij) as (path' & Gj' & NDp & ED). assert (path' = path) by congruence. subst path'.
  destruct (C67_printed_partial wisla_ts wisla_tt wisla_d_max Integer p x value (tt_pass wisla_tt) (skip_of wisla_ts) wisla_t_ref sched wisla_reserved wisla_plain Cr V1 Pe
    j path Ij Gj NDp) as (printed & Gp & Pr).
  exists printed. split; [exact Gp|]. intros s Is. destruct (Pr s Is) as (k & Gk & K1 & K2 & K3). exists k. split; [exact Gk|].
  assert (SK : forall q, skipped wisla_ts j q <-> dget j (skip_of wisla_ts) = Some q).
  { intros q. unfold skipped, skip_of. destruct (ts_skip wisla_ts) as [sk|]; [|split; [intros (sk & X & _); discriminate X|discriminate]].
    split; [intros (sk' & X & Y); congruence|eauto]. }
  split; [intros S; apply SK in S; destruct (K1 S) as (X & Y & _); auto|]. split.
  + intros Iv. pose proof (delay_decided _ _ _ _ _ j s wisla_reserved Cr Iv) as D. assert (NSk : dget j (skip_of wisla_ts) <> Some s) by (rewrite <- SK; apply D).
    destruct (K2 NSk Iv) as (X & Y & _). split; [exact X|]. intros z Hz. apply Y; [exact Hz|].
    destruct (ED s Is) as (e1 & He1). exists e1. eapply earliest_dep_time_sound; [apply wisla_reserved|apply wisla_none|exact He1].
  + intros sp z CB Iv Ar. pose proof (delay_decided _ _ _ _ _ j sp wisla_reserved Cr Iv) as D.
    assert (NSk : dget j (skip_of wisla_ts) <> Some sp) by (rewrite <- SK; apply D).
    pose proof Ar as (sp' & t' & r & CB' & _ & R & _). rewrite (comes_before_fun _ _ _ _ _ CB' CB) in R.
    destruct (K3 sp r r CB NSk Iv R R) as [X _]; [|exact (X z Ar)].
    split; [intros N; congruence|]. intros _.
    assert (RI : exists z, r = inject_Z z).
    { apply dget_in in R. clear - R. cbn in R. repeat (destruct R as [R|R]; [injection R as _ <-; eexists; reflexivity|]). destruct R. }
    destruct RI as (w & ->). exists w. split; [reflexivity|].
    assert (Z0 : inject_Z w - inject_Z w == 0) by lra. split; [rewrite Z0; discriminate|rewrite Z0; discriminate].
Qed.

(** ** The script *)

(** What a sampler does for this problem when it succeeds: of a QUBO it returns a sample of least energy, of a constrained model
    a best one. *)
Definition succeeds (o : samplers) (m : method) (p : lpproblem) : Prop :=
  match m with
  | Cqm => forall c, convert_to_cqm p = Ok c -> exists d e, In (d, e) (sample_cqm o c) /\
      cqm_best c (fun n => match dget n d with Some q => q | None => 0 end)
  | _ => forall b interp, convert_to_bqm p wisla_pdict = Ok (b, interp) -> exists s e, In (s, e) (sample_bqm o m b) /\ ground b s
  end.

Lemma wisla_success o m : real_samplers o -> succeeds o m wisla_p ->
  exists e, solve_on_quantum o wisla_p m (match m with Cqm => [] | _ => wisla_pdict end) = Ok e /\ best_found wisla_p e /\ e_objective e == 54 # 100.
Proof.
  intros RS S. assert (K : exists e, solve_on_quantum o wisla_p m (match m with Cqm => [] | _ => wisla_pdict end) = Ok e /\ best_found wisla_p e).
  { assert (NC : m = Cqm \/ m <> Cqm) by (destruct m; [right; discriminate|right; discriminate|right; discriminate|left; reflexivity]). destruct NC as [->|NC].
    - destruct (C28_total _ _ _ _ wisla_reserved wisla_built) as (c & HC). destruct (S c HC) as (d & e & I & B).
      exact (C87_cqm _ _ _ _ o [] c d e wisla_reserved wisla_plain wisla_built RS HC I B).
    - destruct C88_penalties as (p & b & i & Hp & HC & G & _). rewrite wisla_built in Hp. injection Hp as Hp. rewrite <- Hp in HC, G. clear Hp.
      assert (E : exists s e, In (s, e) (sample_bqm o m b) /\ ground b s) by (destruct m; try (exact (S b i HC)); contradiction).
      destruct E as (s & e & I & GS).
      assert (PD : match m with Cqm => [] | _ => wisla_pdict end = wisla_pdict) by (destruct m; try reflexivity; contradiction). rewrite PD.
      exact (C87_qubo _ _ _ _ o m wisla_pdict b i s e wisla_reserved wisla_built RS NC HC G I GS). }
  destruct K as (e & E & B). exists e. split; [exact E|]. split; [exact B|]. destruct B as (_ & [F O] & EO). rewrite EO.
  destruct C73_optimum as [[F' O'] V]. rewrite <- V. apply Qle_antisym; [apply O, F'|apply O', F].
Qed.

(** Two invocations that use the same file of samples use the same sampler, hybrid ones with the same time; the samples never
    go into a file of schedules. *)
Theorem C88_files_apart : forall a b, In (w_solve_quantum a) methods -> In (w_solve_quantum b) methods ->
  (wisla_file a = wisla_file b ->
     w_solve_quantum a = w_solve_quantum b /\ (In (w_solve_quantum a) ["bqm"; "cqm"] -> w_min_t a = w_min_t b)) /\
  (wisla_sched_file a = wisla_sched_file b <-> wisla_file a = wisla_file b) /\
  wisla_file a <> wisla_sched_file b /\ wisla_file a <> wisla_lp_file b.
Proof.
  intros a b Ma Mb. split; [|split; [|split]].
  - unfold wisla_file. intros E. apply (app_head "solutions_quantum/wisla/") in E. unfold wisla_name, wisla_p_text in E.
    destruct Ma as [Ma|[Ma|[Ma|[Ma|[]]]]], Mb as [Mb|[Mb|[Mb|[Mb|[]]]]]; rewrite <- Ma, <- Mb in *;
      vm_compute (lmem _ _) in E; try discriminate E.
    + split; [reflexivity|intros [X|[X|[]]]; discriminate X].
    + split; [reflexivity|intros [X|[X|[]]]; discriminate X].
    + split; [reflexivity|]. intros _. apply (app_head "bqm") in E. apply (app_head "_wisla") in E.
      apply TimeFacts.us_split in E as [E _]; try apply TimeFacts.number_no_us. apply QuboFacts.str_of_Z_inj. exact E.
    + split; [reflexivity|]. intros _. apply (app_head "cqm") in E. apply (app_head "_wisla") in E.
      apply TimeFacts.us_split in E as [E _]; try apply TimeFacts.number_no_us. apply QuboFacts.str_of_Z_inj. exact E.
  - unfold wisla_file, wisla_sched_file. split; intros E.
    + apply (app_head "solutions_quantum/wisla/data4diagrams/") in E. congruence.
    + apply (app_head "solutions_quantum/wisla/") in E. congruence.
  - unfold wisla_file, wisla_sched_file, wisla_name. intros E. apply (app_head "solutions_quantum/wisla/") in E.
    destruct Ma as [Ma|[Ma|[Ma|[Ma|[]]]]]; rewrite <- Ma in E; cbn in E; discriminate E.
  - unfold wisla_file, wisla_lp_file, wisla_name. intros E. apply (app_head "solutions_quantum/wisla/") in E.
    destruct Ma as [Ma|[Ma|[Ma|[Ma|[]]]]]; rewrite <- Ma in E; cbn in E; discriminate E.
Qed.
Print Assumptions C88_files_apart.

(** Runs with 5 and 20 seconds leave two files. *)
Example C88_files_case : wisla_file (MkWislaArgs "" "cqm" 5 false 0) <> wisla_file (MkWislaArgs "" "cqm" 20 false 0).
Proof. intros E. vm_compute in E. discriminate E. Qed.

(** With a sampler: if it succeeds, the run ends well and a sample of objective 0.54, an optimal plan, is stored; in any case
    what a run stores is the sample that [solve_on_quantum] chose, and nothing else is touched. *)
Theorem C88_stored : forall o a m f, w_show a = false -> w_solve_lp a = "" -> method_of (w_solve_quantum a) = Some m ->
  real_samplers (w_samplers o (w_min_t a)) ->
  (forall f1, wisla_script o a f = (f1, Ok tt) -> exists p e, create_linear_problem wisla_ts wisla_tt wisla_d_max Integer = Ok p /\
     dget (wisla_file a) f1 = Some (WislaSample e) /\ right_entry p e /\ assigns p (e_sample e) /\
     (e_feasible e = true -> conflict_free wisla_ts wisla_tt wisla_d_max p (values (e_sample e))) /\
     forall g, g <> wisla_file a -> dget g f1 = dget g f) /\
  (forall p, create_linear_problem wisla_ts wisla_tt wisla_d_max Integer = Ok p -> succeeds (w_samplers o (w_min_t a)) m p ->
     exists f1 e, wisla_script o a f = (f1, Ok tt) /\ dget (wisla_file a) f1 = Some (WislaSample e) /\
       best_found p e /\ e_objective e == 54 # 100).
Proof.
  intros o a m f SH NL HM RS.
  assert (Q : lmem (w_solve_quantum a) [""; "sim"; "real"; "bqm"; "cqm"] = true).
  { apply lmem_true. unfold method_of in HM. cbn [In].
    destruct (eqb (w_solve_quantum a) "sim") eqn:E1; [apply eqb_eq in E1; auto|].
    destruct (eqb (w_solve_quantum a) "real") eqn:E2; [apply eqb_eq in E2; auto|].
    destruct (eqb (w_solve_quantum a) "bqm") eqn:E3; [apply eqb_eq in E3; auto|].
    destruct (eqb (w_solve_quantum a) "cqm") eqn:E4; [apply eqb_eq in E4; auto 6|discriminate HM]. }
  assert (S : wisla_script o a f =
    match solve_on_quantum (w_samplers o (w_min_t a)) wisla_p m (match m with Cqm => [] | _ => wisla_pdict end) with
    | Err e => (f, Err e)
    | Ok e => (dset (wisla_file a) (WislaSample e) f, Ok tt)
    end).
  { unfold wisla_script. rewrite wisla_built, Q. cbn [negb]. unfold wisla_lp_part. rewrite NL. change (eqb "" "") with true. cbn iota.
    unfold wisla_quantum_part. rewrite HM, SH. reflexivity. }
  rewrite S. split.
  - intros f1 H. destruct (solve_on_quantum _ _ _ _) as [e|] eqn:E; [|discriminate H]. injection H as <-. exists wisla_p, e. split; [exact wisla_built|].
    split; [rewrite dget_dset; destruct (eq_dec (wisla_file a) (wisla_file a)); congruence|].
    assert (K : right_entry wisla_p e /\ assigns wisla_p (e_sample e)).
    { pose proof E as E'. unfold solve_on_quantum in E'. inv_bind E'. inv_bind E'. rename a0 into rows, a1 into out.
      assert (IE : In e out).
      { unfold get_best_feasible_sample in E'. destruct (find e_feasible out) as [e'|] eqn:Fd.
        - inversion E'; subst. apply find_some in Fd. tauto.
        - unfold lnth in E'. destruct (nth_error (sorted_by e_energy out) 0) as [e'|] eqn:N; [|discriminate]. inversion E'; subst.
          apply nth_error_In in N. eapply Permutation.Permutation_in; [symmetry; apply (Interp.sorted_perm e_energy)|exact N]. }
      destruct (results_inv wisla_p rows out E1 e IE) as (d & q & Hd & <- & _).
      assert (AS : forall d e, In (d, e) rows -> assigns wisla_p d) by (intros d' e' H'; exact (proj1 (C33_in_range wisla_ts wisla_tt wisla_d_max Integer wisla_p _ _ _ rows wisla_reserved wisla_built RS E0 d' e' H'))).
      destruct (C31_results wisla_p rows (proj1 (created_apart _ _ _ _ _ wisla_reserved wisla_built)) AS) as (out' & HO & _ & _ & _ & RE).
      assert (out' = out) by congruence. subst out'. split; [exact (RE e IE)|exact (AS _ _ Hd)]. }
    split; [exact (proj1 K)|]. split; [exact (proj2 K)|]. split.
    + intros Fe. exact (C33_solution wisla_ts wisla_tt wisla_d_max Integer wisla_p _ _ _ e wisla_reserved wisla_none (Qlt_le_weak _ _ wisla_positive) wisla_built RS E Fe).
    + intros g N. rewrite dget_dset. destruct (eq_dec g (wisla_file a)); congruence.
  - intros p Hp SU. rewrite wisla_built in Hp. injection Hp as Hp. rewrite <- Hp in *. clear Hp.
    destruct (wisla_success _ m RS SU) as (e & E & B & O). rewrite E. exists (dset (wisla_file a) (WislaSample e) f), e.
    split; [reflexivity|]. split; [rewrite dget_dset; destruct (eq_dec (wisla_file a) (wisla_file a)); congruence|]. auto.
Qed.
Print Assumptions C88_stored.

(** The same call with [--show_timetable] *)
Definition wisla_to_show (a : wisla_args) : wisla_args :=
  MkWislaArgs "" (w_solve_quantum a) (w_min_t a) true (w_time_limit a).

(** What a run has stored is what the later call with [--show_timetable] puts into the diagram. *)
Theorem C88_shown : forall o a m f f1 f2, w_show a = false -> w_solve_lp a = "" -> method_of (w_solve_quantum a) = Some m ->
  real_samplers (w_samplers o (w_min_t a)) -> wisla_script o a f = (f1, Ok tt) -> dget (wisla_file a) f2 = dget (wisla_file a) f1 ->
  exists p e f3 sched, create_linear_problem wisla_ts wisla_tt wisla_d_max Integer = Ok p /\
    dget (wisla_file a) f1 = Some (WislaSample e) /\ wisla_script o (wisla_to_show a) f2 = (f3, Ok tt) /\
    dget (wisla_sched_file a) f3 = Some (WislaSchedule sched) /\ shows_plan wisla_ts wisla_tt p (values (e_sample e)) 480 sched /\
    forall g, g <> wisla_sched_file a -> dget g f3 = dget g f2.
Proof.
  intros o a m f f1 f2 SH NL HM RS H F2. destruct (proj1 (C88_stored o a m f SH NL HM RS) f1 H) as (p & e & Cr & G & _ & AS & _).
  assert (V : forall v, In v (variables p) -> dget (v_name v) (e_sample e) = Some (values (e_sample e) (v_id v))).
  { intros v Hv. specialize (AS v (variables_occurs p v Hv)). apply key_get in AS as (y & Gy). unfold values.
    change (id_name (v_id v)) with (v_name v). rewrite Gy. reflexivity. }
  destruct (wisla_prints p _ _ Cr V) as (sched & Pr).
  exists p, e, (dset (wisla_sched_file a) (WislaSchedule sched) f2), sched. split; [exact Cr|]. split; [exact G|]. split; [|split; [|split]].
  - unfold wisla_script in H |- *. rewrite Cr in H |- *. cbn [w_solve_quantum wisla_to_show].
    destruct (lmem (w_solve_quantum a) _); cbn [negb] in H |- *; [|discriminate H].
    unfold wisla_lp_part. cbn [w_solve_lp wisla_to_show]. change (eqb "" "") with true. cbn iota.
    unfold wisla_quantum_part. cbn [w_solve_quantum w_show wisla_to_show]. rewrite HM.
    change (wisla_file (wisla_to_show a)) with (wisla_file a). rewrite F2, G, Pr. reflexivity.
  - rewrite dget_dset. destruct (eq_dec (wisla_sched_file a) (wisla_sched_file a)); congruence.
  - exact (wisla_shows p _ _ sched Cr V Pr).
  - intros g N. rewrite dget_dset. destruct (eq_dec g (wisla_sched_file a)); congruence.
Qed.
Print Assumptions C88_shown.

(** With an ILP solver and [--show_timetable]: the plan it leaves is put into its diagram. *)
Theorem C88_lp_shown : forall o a f sv x p, w_show a = true -> w_solve_lp a <> "" -> w_solve_quantum a = "" ->
  create_linear_problem wisla_ts wisla_tt wisla_d_max Integer = Ok p ->
  w_solver o (w_solve_lp a) (w_time_limit a) = Some sv -> sv p = Some x -> feasible p x ->
  exists f1 sched, wisla_script o a f = (f1, Ok tt) /\ dget (wisla_lp_file a) f1 = Some (WislaSchedule sched) /\
    shows_plan wisla_ts wisla_tt p x 480 sched /\ conflict_free wisla_ts wisla_tt wisla_d_max p x /\
    forall g, g <> wisla_lp_file a -> dget g f1 = dget g f.
Proof.
  intros o a f sv x p SH NL NQ Cr HS HX FE.
  assert (V : forall v, In v (variables p) -> Some (x (v_id v)) = Some (x (v_id v))) by reflexivity.
  destruct (wisla_prints p x (fun v => Some (x (v_id v))) Cr V) as (sched & Es).
  exists (dset (wisla_lp_file a) (WislaSchedule sched) f), sched. split; [|split; [|split; [|split]]].
  - unfold wisla_script. rewrite Cr, NQ. change (lmem "" [""; "sim"; "real"; "bqm"; "cqm"]) with true. cbn [negb].
    assert (L : wisla_lp_part o a p f = (dset (wisla_lp_file a) (WislaSchedule sched) f, Ok tt)).
    { unfold wisla_lp_part. destruct (eqb (w_solve_lp a) "") eqn:EL; [apply eqb_eq in EL; contradiction|]. rewrite HS, HX, SH, Es. cbn [bind].
      assert (YZ : forall j, In j (ts_J wisla_ts) -> ~ ends_yz j).
      { intros j J. assert (Y : existsb (fun j => existsb (fun c => Ascii.eqb c "y"%char || Ascii.eqb c "z"%char) (String.list_ascii_of_string (str j))) (ts_J wisla_ts) = false) by (vm_compute; reflexivity).
        intros E. rewrite <- not_true_iff_false in Y. apply Y. apply existsb_exists. exists j. split; [exact J|].
        destruct E as (u & [E|E]); rewrite E; apply existsb_exists.
        - exists "y"%char. split; [|reflexivity]. clear. induction u; [left; reflexivity|right; assumption].
        - exists "z"%char. split; [|reflexivity]. clear. induction u; [left; reflexivity|right; assumption]. }
      destruct (C50_checked_partial wisla_ts wisla_tt wisla_d_max Integer p x wisla_reserved wisla_plain Cr YZ) as [K _]. rewrite K; [reflexivity|].
      intros v Hv O. destruct FE as [_ FV]. specialize (FV v Hv).
      assert (B : v_lo v = Some 0 /\ v_up v = Some 1 /\ v_cat v = Integer).
      { destruct (occurs_canon _ _ _ _ _ wisla_reserved Cr v (variables_occurs p v Hv)) as [(j & s & _ & ->)|(q & [->| ->])].
        - destruct O as [O|O]; discriminate O.
        - auto.
        - auto. }
      destruct B as (B1 & B2 & B3), FV as (F1 & F2 & F3). specialize (F1 0 B1). specialize (F2 1 B2). destruct (F3 B3) as (z & Hz).
      assert (Z : (0 <= z <= 1)%Z) by (split; rewrite Zle_Qle; [change (inject_Z 0) with 0|change (inject_Z 1) with 1]; lra).
      unfold almost_0_or_1. rewrite Hz. assert (z = 0 \/ z = 1)%Z as [->| ->] by lia.
      - left. split; discriminate.
      - right. split; discriminate. }
    rewrite L. unfold wisla_quantum_part. rewrite NQ. reflexivity.
  - rewrite dget_dset. destruct (eq_dec (wisla_lp_file a) (wisla_lp_file a)); congruence.
  - exact (wisla_shows p x _ sched Cr V Es).
  - exact (feasible_conflict_free wisla_ts wisla_tt wisla_d_max Integer p x wisla_reserved wisla_none (Qlt_le_weak _ _ wisla_positive) Cr FE).
  - intros g N. rewrite dget_dset. destruct (eq_dec g (wisla_lp_file a)); congruence.
Qed.
Print Assumptions C88_lp_shown.

(** ** Cases *)

Definition wisla_world : wisla_outside := MkWislaOutside (fun _ _ => Some (fun _ => Some wisla_best)) (fun _ => exhaustive).

(** Simulated annealing that tries everything, then the diagram *)
Example C88_case : exists p e f1 f3 sched, wisla_script wisla_world (MkWislaArgs "" "sim" 5 false 0) [] = (f1, Ok tt) /\
  dget "solutions_quantum/wisla/sim_wisla_case1.pkl" f1 = Some (WislaSample e) /\ best_found p e /\ e_objective e == 54 # 100 /\
  wisla_script wisla_world (MkWislaArgs "" "sim" 5 true 0) f1 = (f3, Ok tt) /\
  dget "solutions_quantum/wisla/data4diagrams/sim_wisla_case1.pkl" f3 = Some (WislaSchedule sched) /\
  shows_plan wisla_ts wisla_tt p (values (e_sample e)) 480 sched.
Proof.
  assert (SU : succeeds exhaustive Sim wisla_p) by (intros b i _; apply exhaustive_reaches).
  destruct (proj2 (C88_stored wisla_world (MkWislaArgs "" "sim" 5 false 0) Sim [] eq_refl eq_refl eq_refl exhaustive_real) wisla_p wisla_built SU) as (f1 & e & H & G & B & O).
  destruct (C88_shown wisla_world (MkWislaArgs "" "sim" 5 false 0) Sim [] f1 f1 eq_refl eq_refl eq_refl exhaustive_real H eq_refl) as (p' & e' & f3 & sched & Hp & G' & H' & D & SP & _).
  rewrite wisla_built in Hp. injection Hp as Hp. rewrite <- Hp in SP. clear Hp. rewrite G in G'. injection G' as G'. rewrite <- G' in SP.
  exists wisla_p, e, f1, f3, sched. split; [exact H|]. split; [exact G|]. split; [exact B|]. split; [exact O|]. split; [exact H'|]. split; [exact D|exact SP].
Qed.

Example C88_lp_case : exists f1 sched, wisla_script wisla_world (MkWislaArgs "PULP_CBC_CMD" "" 5 true 0) [] = (f1, Ok tt) /\
  dget "solutions_quantum/wisla/data4diagrams/PULP_CBC_CMD_wisla_case1.pkl" f1 = Some (WislaSchedule sched) /\
  shows_plan wisla_ts wisla_tt wisla_p wisla_best 480 sched.
Proof.
  destruct (C88_lp_shown wisla_world (MkWislaArgs "PULP_CBC_CMD" "" 5 true 0) [] (fun _ => Some wisla_best) wisla_best wisla_p eq_refl ltac:(discriminate) eq_refl
    wisla_built eq_refl eq_refl wisla_best_feasible) as (f1 & sched & H & D & SP & _).
  exists f1, sched. split; [exact H|]. split; [exact D|exact SP].
Qed.
