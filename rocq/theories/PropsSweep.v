(** * PropsSweep: the constrained solver when it reaches the optimum, from solve_real_problem.py to tmin_plot.py (C87, C90) *)

From Coq Require Import List String ZArith QArith Qround Bool Lia Lqa.
From Verif Require Import Base BaseFacts Pulp Helpers LinearSolver Converters Results DataTables DataSets DataTimes Pipeline Runs Script TminPlot
  Spec SpecTables SpecSets SpecDurations SpecEnd SpecBuild SpecQubo SpecNames SpecResults SpecRuns SpecMinutes SpecScript Created Builds EndFacts ResultFacts QuboModel PropsQubo PropsRoom PropsMinutes PropsScenario
  RealData PropsReal PropsTotal PropsRuns PropsResults PropsCqm PropsScript PropsReached PropsTmin PropsEndCases PropsTotalCases.
Import ListNotations.
Open Scope string_scope.
Open Scope list_scope.

(** The values of a row *)
Definition row_value (d : dict string Q) (n : string) : Q := match dget n d with Some q => q | None => 0 end.

(** The sampler returns, among others, a best sample of the constrained model of a problem. *)
Definition reaches_best (o : samplers) (p : lpproblem) : Prop :=
  forall c, convert_to_cqm p = Ok c -> exists d e, In (d, e) (sample_cqm o c) /\ cqm_best c (row_value d).

(** ** A sampler that tries everything *)

Definition domain (t : cqm_type) : list Q :=
  match t with
  | CBinary => [0; 1]
  | CInteger ub => map (fun n => inject_Z (Z.of_nat n)) (seq 0 (S (Z.to_nat (Qfloor ub))))
  end.

Fixpoint all_rows (vars : dict string cqm_type) : list (dict string Q) :=
  match vars with
  | [] => [[]]
  | (n, t) :: l => flat_map (fun d => map (fun q => (n, q) :: d) (domain t)) (all_rows l)
  end.

Definition in_typeb (t : cqm_type) (q : Q) : bool :=
  match t with
  | CBinary => Qeq_bool q 0 || Qeq_bool q 1
  | CInteger ub => Qeq_bool q (inject_Z (Qfloor q)) && Qle_bool 0 q && Qle_bool q ub
  end.

Definition typedb (c : cqm) (d : dict string Q) : bool := forallb (fun nt => in_typeb (snd nt) (row_value d (fst nt))) (q_vars c).

Definition trying_all : samplers :=
  MkSamplers (sample_bqm exhaustive) (fun c => map (fun d => (d, 0)) (filter (typedb c) (all_rows (q_vars c)))).

Lemma int_floor q : is_int q -> q == inject_Z (Qfloor q).
Proof. intros (z & E). rewrite (Qfloor_comp _ _ E), Qfloor_Z. exact E. Qed.

Lemma in_typeb_iff t q : in_typeb t q = true <-> in_type t q.
Proof.
  destruct t as [|ub]; cbn [in_typeb in_type].
  - rewrite orb_true_iff, !Qeq_bool_iff. reflexivity.
  - rewrite !andb_true_iff, Qeq_bool_iff, !Qle_bool_iff. split.
    + intros [[H1 H2] H3]. split; [exists (Qfloor q); exact H1|]. split; assumption.
    + intros [H1 [H2 H3]]. split; [split; [exact (int_floor q H1)|exact H2]|exact H3].
Qed.

Lemma typedb_iff c d : typedb c d = true <-> typed c (row_value d).
Proof.
  unfold typedb, typed. rewrite forallb_forall. split.
  - intros H n t I. apply in_typeb_iff. exact (H (n, t) I).
  - intros H [n t] I. apply in_typeb_iff. exact (H n t I).
Qed.

Lemma rows_keys vars : forall d, In d (all_rows vars) -> dkeys d = dkeys vars.
Proof.
  induction vars as [|[n t] l IH]; intros d I; cbn [all_rows] in I; [destruct I as [<-|[]]; reflexivity|].
  apply in_flat_map in I as (d0 & I0 & I). apply in_map_iff in I as (q & <- & _). cbn. f_equal. apply IH. exact I0.
Qed.

Lemma domain_in t q : in_type t q -> exists r, In r (domain t) /\ r == q.
Proof.
  destruct t as [|ub]; cbn [in_type domain].
  - intros [E|E]; [exists 0|exists 1]; (split; [cbn; auto|symmetry; exact E]).
  - intros [I [L U]]. exists (inject_Z (Qfloor q)). split; [|symmetry; exact (int_floor q I)].
    apply Qfloor_resp_le in L, U. rewrite (Qfloor_Z 0 : Qfloor 0 = 0%Z) in L. apply in_map_iff. exists (Z.to_nat (Qfloor q)). split; [rewrite Z2Nat.id by lia; reflexivity|].
    apply in_seq. lia.
Qed.

Lemma rows_in (q : string -> Q) vars : (forall n t, In (n, t) vars -> in_type t (q n)) ->
  exists d, In d (all_rows vars) /\ forall n, In n (dkeys vars) -> row_value d n == q n.
Proof.
  induction vars as [|[n t] l IH]; intros H.
  - exists []. split; [left; reflexivity|]. intros n [].
  - destruct IH as (d & I & K); [intros n' t' I; apply H; right; exact I|]. destruct (domain_in t (q n) (H n t (or_introl eq_refl))) as (r & Ir & Er).
    exists ((n, r) :: d). split; [cbn [all_rows]; apply in_flat_map; exists d; split; [exact I|]; apply in_map_iff; eauto|].
    intros n' J. unfold row_value. cbn [dget]. destruct (eq_dec n' n) as [->|N]; [exact Er|]. apply K. destruct J as [J|J]; [cbn in J; congruence|exact J].
Qed.

Lemma trying_real : real_samplers trying_all.
Proof.
  split; [exact (proj1 exhaustive_real)|]. intros c d e I. cbn [sample_cqm trying_all] in I. apply in_map_iff in I as (d0 & E & I). injection E as -> _.
  apply filter_In in I as [I T]. split; [intros n; rewrite (rows_keys _ _ I); auto|]. apply typedb_iff. exact T.
Qed.

Definition relatedb (s : sense) (a b : Q) : bool :=
  match s with LE => Qle_bool a b | EQ => Qeq_bool a b | GE => Qle_bool b a end.

Lemma relatedb_iff s a b : relatedb s a b = true <-> related s a b.
Proof. destruct s; cbn; [apply Qle_bool_iff|apply Qeq_bool_iff|apply Qle_bool_iff]. Qed.

Definition keptb (c : cqm) (d : dict string Q) : bool :=
  forallb (fun nk => relatedb (cc_sense (snd nk)) (lin_value (cc_lhs (snd nk)) (row_value d)) (cc_rhs (snd nk))) (q_constraints c).

Lemma keptb_iff c d : typed c (row_value d) -> (keptb c d = true <-> cqm_feasible c (row_value d)).
Proof.
  intros T. unfold keptb, cqm_feasible. rewrite forallb_forall. split.
  - intros H. split; [exact T|]. intros n k I. apply relatedb_iff. exact (H (n, k) I).
  - intros [_ H] [n k] I. apply relatedb_iff. exact (H n k I).
Qed.

Lemma tried ts tab d_max p c q : reserved_free ts -> create_linear_problem ts tab d_max Integer = Ok p -> convert_to_cqm p = Ok c ->
  cqm_feasible c q -> exists d, In d (filter (keptb c) (filter (typedb c) (all_rows (q_vars c)))) /\
    lin_value (q_objective c) (row_value d) == lin_value (q_objective c) q.
Proof.
  intros RF Cr HC F. destruct (rows_in q (q_vars c) (proj1 F)) as (d & I & K).
  assert (LO : forall v lo, In v (variables p) -> v_lo v = Some lo -> lo = 0).
  { intros v lo Hv L. destruct (created_bounds _ _ _ _ _ RF Cr v (variables_occurs p v Hv)) as [Lo _]. congruence. }
  destruct (C28_same_problem p c HC) as (LB & _ & SM); [intros v lo Hv L; exists 0%Z; rewrite (LO v lo Hv L); reflexivity|].
  assert (C1 : counted_from_lower p q (fun i => q (id_name i))).
  { intros v lo Hv L. rewrite (LO v lo Hv L). change (id_name (v_id v)) with (v_name v). lra. }
  assert (C2 : counted_from_lower p (row_value d) (fun i => q (id_name i))).
  { intros v lo Hv L. rewrite (LO v lo Hv L). change (id_name (v_id v)) with (v_name v). rewrite (K (v_name v)); [lra|]. apply LB. eauto. }
  destruct (SM _ _ C1) as [S1 O1], (SM _ _ C2) as [S2 O2]. assert (FD : cqm_feasible c (row_value d)) by (apply S2, S1; exact F).
  exists d. split; [|rewrite O1, O2; reflexivity]. apply filter_In. split; [apply filter_In; split; [exact I|apply typedb_iff; apply FD]|]. apply keptb_iff; [apply FD|exact FD].
Qed.

Lemma trying_reaches ts tab d_max p : reserved_free ts -> plain_names ts -> create_linear_problem ts tab d_max Integer = Ok p -> (exists x, feasible p x) ->
  reaches_best trying_all p.
Proof.
  intros RF PN Cr (x & Fx) c HC.
  destruct (created_conditions _ _ _ _ _ RF Cr) as (_ & _ & HD & _). specialize (HD PN).
  destruct (C28_same_problem p c HC) as (_ & _ & SM).
  { intros v lo Hv L. destruct (created_bounds _ _ _ _ _ RF Cr v (variables_occurs p v Hv)) as [Lo _]. rewrite Lo in L. inversion L. exists 0%Z. reflexivity. }
  set (q := fun n => match find (fun v => String.eqb (v_name v) n) (variables p) with Some v => x (v_id v) | None => 0 end).
  assert (CL : counted_from_lower p q x).
  { intros v lo Hv L. destruct (created_bounds _ _ _ _ _ RF Cr v (variables_occurs p v Hv)) as [Lo _]. rewrite Lo in L. inversion L; subst lo.
    unfold q. destruct (find _ (variables p)) as [w|] eqn:Fd.
    - apply find_some in Fd as [Iw E]. apply String.eqb_eq in E. rewrite (HD w v (variables_occurs p w Iw) (variables_occurs p v Hv) E). lra.
    - exfalso. pose proof (find_none _ _ Fd v Hv) as N. cbn beta in N. rewrite String.eqb_refl in N. discriminate N. }
  destruct (tried ts tab d_max p c q RF Cr HC (proj2 (proj1 (SM q x CL)) Fx)) as (d0 & I0 & _).
  destruct (least (fun d => lin_value (q_objective c) (row_value d)) (filter (keptb c) (filter (typedb c) (all_rows (q_vars c))))) as (d & I & B).
  { intros X. rewrite X in I0. destruct I0. }
  exists d, 0. pose proof I as J. apply filter_In in J as [J1 J2]. split; [cbn [sample_cqm trying_all]; apply in_map_iff; eauto|]. split.
  - apply keptb_iff; [apply typedb_iff; apply filter_In in J1; apply J1|exact J2].
  - intros q' F'. destruct (tried ts tab d_max p c q' RF Cr HC F') as (d' & I' & E'). rewrite <- E'. exact (B d' I').
Qed.

(** C87. This sampler always gives an optimal plan, also through the constrained model. *)
Theorem C87_cqm_exhaustive : forall ts tab d_max p pdict, reserved_free ts -> plain_names ts -> create_linear_problem ts tab d_max Integer = Ok p ->
  (exists x, feasible p x) -> exists en, solve_on_quantum trying_all p Cqm pdict = Ok en /\ best_found p en.
Proof.
  intros ts tab d_max p pdict RF PN Cr FE. destruct (C28_total ts tab d_max p RF Cr) as (c & HC).
  destruct (trying_reaches ts tab d_max p RF PN Cr FE c HC) as (d & e & I & B).
  exact (C87_cqm ts tab d_max p trying_all pdict c d e RF PN Cr trying_real HC I B).
Qed.
Print Assumptions C87_cqm_exhaustive.

(** ** The script *)

(** C87. A run of solve_real_problem.py with the constrained solver: if it reaches a best sample each time, every run stores an optimal
    plan, whatever the penalty. *)
Theorem C87_script_cqm : forall o a f td st ts tab p,
  In (a_case a) [0; 1; 2; 3; 4; 5; 6; 7; 8; 9]%Z -> a_category a = Integer -> a_show a = false -> a_solve_lp a = "" -> a_solve_quantum a = "cqm" ->
  made_by o a td st ts tab p -> tidy td st -> complete td st (o_network o) "16:00" -> no_part_lines td ->
  (forall i, real_samplers (o_samplers o i)) -> (forall i, reaches_best (o_samplers o i) p) ->
  exists f1 samples, script o a f = (f1, Ok tt) /\ dget (samples_file o a) f1 = Some (Samples samples) /\
    (forall i, In i (dkeys samples) <-> (1 <= i <= a_runs a)%Z) /\
    forall i, (1 <= i <= a_runs a)%Z -> exists en, dget i samples = Some en /\ best_found p en.
Proof.
  intros o a f td st ts tab p IC CA SH NL HQ MB T C NP RS RB.
  assert (AN : answering o p).
  { intros i c HC X. destruct (RB i c HC) as (d & e & I & _). rewrite X in I. destruct I. }
  destruct (C85_answers o a f td st ts tab p IC SH NL HQ CA MB T C NP RS AN) as (f1 & S1).
  assert (IM : In (a_solve_quantum a) methods) by (rewrite HQ; do 3 right; left; reflexivity).
  destruct (C85_stored o a f f1 SH IM S1) as (td' & st' & ts' & tab' & p' & samples & MB' & G & Keys & Runs & _).
  destruct MB as (d1 & A1 & A2 & A3 & A4), MB' as (d2 & B1 & B2 & B3 & B4).
  assert (X : d2 = d1) by congruence. assert (Y : st' = st) by congruence. rewrite X, Y in B3. assert (Z0 : td' = td) by congruence. rewrite Z0, Y in B4.
  rewrite A4 in B4. injection B4 as _ _ E. rewrite <- E in Runs. clear X Y Z0 E B1 B2 B3.
  exists f1, samples. split; [exact S1|]. split; [exact G|]. split; [exact Keys|].
  intros i Hi. destruct (Runs i Hi) as (m & pdict & en & Hm & _ & S & Gi). rewrite HQ in Hm. injection Hm as <-.
  exists en. split; [exact Gi|]. rewrite CA in A4. pose proof (parts _ _ _ _ _ _ _ _ _ _ A4) as [Cr Md].
  assert (DM : ~ 40 == 0) by (intros X; discriminate X). pose proof (made_well_formed _ _ _ _ _ _ _ T C NP Md 40 DM) as WF.
  destruct (C28_total ts tab 40 p (wf_reserved _ _ _ WF) Cr) as (c & HC). destruct (RB i c HC) as (d & e & I & B).
  destruct (C87_cqm ts tab 40 p (o_samplers o i) pdict c d e (wf_reserved _ _ _ WF) (wf_plain _ _ _ WF) Cr (RS i) HC I B) as (en' & S' & BF).
  rewrite S in S'. injection S' as S'. rewrite S'. exact BF.
Qed.
Print Assumptions C87_script_cqm.

(** ** The sweep *)

(** Runs of solve_real_problem.py with one minimal time after the other *)
Fixpoint sweep_runs (o : outside) (case n : Z) (penalty : Q) (tmins : list Z) (f : files) : files :=
  match tmins with
  | [] => f
  | t :: l => sweep_runs o case n penalty l (fst (script o (sweep_args case t n penalty) f))
  end.

(** C90. With the tables of the repository and a constrained solver that reaches a best sample each time, the sweep over any minimal times and
    then tmin_plot.py draw mean and envelope as one line, at the optimum in minutes. *)
Theorem C90_flat : forall o case n penalty tmins f0 td st ts tab p x,
  repository o -> In case [7; 9]%Z -> (1 <= n)%Z -> tmins <> [] ->
  made_by o (sweep_args case 5 n penalty) td st ts tab p -> optimal p x ->
  (forall i, real_samplers (o_samplers o i)) -> (forall i, reaches_best (o_samplers o i) p) ->
  exists s, plotting_objective (sweep_runs o case n penalty tmins f0) "cqm" (network_name case) tmins = Ok s /\
    forall l, In l [sw_mean s; sw_min s; sw_max s] -> List.length l = List.length tmins /\ forall y, In y l -> y == obj_value p x * 40.
Proof.
  intros o case n penalty tmins f0 td st ts tab p x R IC Hn NE MB OP RS RB.
  assert (IA : forall t, In (a_case (sweep_args case t n penalty)) [0; 1; 2; 3; 4; 5; 6; 7; 8; 9]%Z) by (intros t; cbn [a_case sweep_args In]; destruct IC as [<-|[<-|[]]]; lia).
  destruct (C85_repository o (sweep_args case 5 n penalty) R (IA 5%Z)) as (td1 & st1 & ts1 & tab1 & p1 & MB1 & T & C & NP).
  assert (E : td1 = td /\ st1 = st).
  { destruct MB as (d1 & A1 & A2 & A3 & _), MB1 as (d2 & B1 & B2 & B3 & _). assert (X : d2 = d1) by congruence. assert (Y : st1 = st) by congruence.
    rewrite X, Y in B3. split; [congruence|exact Y]. }
  destruct E as [E1 E2]. rewrite E1 in T, C, NP. rewrite E2 in T, C. clear MB1 E1 E2.
  assert (RUN : forall t f, exists f1 samples, script o (sweep_args case t n penalty) f = (f1, Ok tt) /\
    dget (tmin_file "cqm" (network_name case) t) f1 = Some (Samples samples) /\
    (forall g, g <> tmin_file "cqm" (network_name case) t -> dget g f1 = dget g f) /\
    swept f1 case t p /\ forall e, In e (entries f1 (tmin_file "cqm" (network_name case) t)) -> optimal p (values (e_sample e))).
  { intros t f. destruct (C87_script_cqm o (sweep_args case t n penalty) f td st ts tab p (IA t) eq_refl eq_refl eq_refl eq_refl MB T C NP RS RB) as (f1 & samples & S & G & Keys & BF).
    rewrite sweep_name in G. exists f1, samples. split; [exact S|]. split; [exact G|].
    destruct (C85_stored o (sweep_args case t n penalty) f f1 eq_refl (or_intror (or_intror (or_intror (or_introl eq_refl)))) S) as (_ & _ & _ & _ & _ & _ & _ & _ & _ & _ & O).
    rewrite sweep_name in O. split; [exact O|].
    assert (SW : swept f1 case t p).
    { exists o, penalty, n, f, f1, td, st, ts, tab. split; [exact Hn|]. split; [exact RS|]. split; [exact MB|]. split; [exact T|]. split; [exact S|reflexivity]. }
    split; [exact SW|]. intros e Ie. destruct (swept_inv f1 case t p SW) as (l & Gl & _). fold (numbered l) in Gl. rewrite (numbered_entries _ _ _ Gl) in Ie.
    rewrite G in Gl. injection Gl as Gl. apply In_nth_error in Ie as (k & N). pose proof (numbered_get l 0 k e N) as Gk. fold (numbered l) in Gk. rewrite <- Gl in Gk.
    assert (J : (1 <= Z.of_nat (0 + k) + 1 <= n)%Z).
    { apply (Keys (Z.of_nat (0 + k) + 1)%Z). apply dget_in in Gk. apply (in_map fst) in Gk. exact Gk. }
    destruct (BF _ J) as (en & Ge & B). rewrite Gk in Ge. injection Ge as Ge. rewrite Ge. apply B. }
  (* after all runs every file is as its last run left it *)
  assert (ALL : forall l f, (forall t, In t l ->
      swept (sweep_runs o case n penalty l f) case t p /\
      forall e, In e (entries (sweep_runs o case n penalty l f) (tmin_file "cqm" (network_name case) t)) -> optimal p (values (e_sample e))) /\
    (forall t, ~ In t l -> dget (tmin_file "cqm" (network_name case) t) (sweep_runs o case n penalty l f) = dget (tmin_file "cqm" (network_name case) t) f)).
  { induction l as [|t l IH]; intros f; [split; [intros t []|reflexivity]|]. cbn [sweep_runs].
    destruct (RUN t f) as (f1 & samples & S & G & O & SW & B). rewrite S. cbn [fst]. destruct (IH f1) as [I1 I2]. split.
    - intros t' I. destruct (in_dec Z.eq_dec t' l) as [J|J]; [exact (I1 t' J)|]. destruct I as [<-|I]; [|contradiction].
      specialize (I2 t J). split.
      + destruct SW as (o' & pen & n' & fa & fb & td' & st' & ts' & tab' & H1 & H2 & H3 & H4 & H5 & H6).
        exists o', pen, n', fa, fb, td', st', ts', tab'. split; [exact H1|]. split; [exact H2|]. split; [exact H3|]. split; [exact H4|]. split; [exact H5|].
        rewrite sweep_name in *. congruence.
      + intros e. unfold entries. rewrite I2. exact (B e).
    - intros t' N. rewrite I2 by (intros X; apply N; right; exact X). apply O. intros X. apply N. left.
      unfold tmin_file in X. apply (app_head "solutions_quantum/cqm") in X. apply TimeFacts.us_split in X as [X _]; try apply TimeFacts.number_no_us.
      apply QuboFacts.str_of_Z_inj in X. symmetry. exact X. }
  destruct (ALL tmins f0) as [A _].
  destruct (C90_reached (sweep_runs o case n penalty tmins f0) case tmins p x IC NE (fun t I => proj1 (A t I)) OP (fun t e I => proj2 (A t I) e)) as (s & E & K).
  destruct (C90_sweep (sweep_runs o case n penalty tmins f0) case tmins p IC NE (fun t I => proj1 (A t I))) as (_ & K2). cbv zeta in K2.
  destruct K2 as (s' & E' & L1 & L2 & L3 & _).
  { intros t e It Ie. destruct (swept_inv _ case t p (proj1 (A t It))) as (l & Gl & _ & Rl). fold (numbered l) in Gl. pose proof Ie as Ie'.
    rewrite (numbered_entries _ _ _ Gl) in Ie'. apply (Rl e Ie'). apply (proj2 (A t It) e Ie). }
  rewrite E in E'. injection E' as E'. rewrite <- E' in L1, L2, L3.
  exists s. split; [exact E|]. intros l I. split; [destruct I as [<-|[<-|[<-|[]]]]; assumption|]. intros y Iy. exact (K l y I Iy).
Qed.
Print Assumptions C90_flat.

(** ** Cases *)

(** The day of C81_case through the constrained model *)
Example C87_cqm_case : exists ts tab p en, tables_to_problem day_td day_st day_net "16:00" day_delays 15 Integer = Ok (ts, tab, p) /\
  solve_on_quantum trying_all p Cqm [] = Ok en /\ best_found p en.
Proof.
  destruct C81_case as (ts & tab & p & C & NP & H & L & HV & LR & FE). destruct C82_case as (T & W & D & _ & _ & _).
  pose proof (parts _ _ _ _ _ _ _ _ _ _ H) as [Cr Md]. assert (DM : ~ 15 == 0) by (intros X; discriminate X).
  pose proof (made_well_formed _ _ _ _ _ _ _ T C NP Md 15 DM) as WF.
  destruct (C87_cqm_exhaustive ts tab 15 p [] (wf_reserved _ _ _ WF) (wf_plain _ _ _ WF) Cr FE) as (en & S & B). exists ts, tab, p, en. auto.
Qed.

(** The repository with the sampler that tries everything: the conditions of [C90_flat] are met as soon as the problem has a solution. *)
Definition trying_outside : outside := MkOutside (o_text zero_outside) (o_table zero_outside) (o_stations zero_outside) network (fun _ => None) (fun _ => trying_all).

Example C90_flat_case : forall case, In case [7; 9]%Z -> exists td st ts tab p,
  repository trying_outside /\ made_by trying_outside (sweep_args case 5 3 1) td st ts tab p /\ (forall i, real_samplers (o_samplers trying_outside i)) /\
  ((exists x, feasible p x) -> forall i, reaches_best (o_samplers trying_outside i) p).
Proof.
  intros case IC. assert (R : repository trying_outside) by (repeat split; reflexivity).
  destruct (C85_repository trying_outside (sweep_args case 5 3 1) R) as (td & st & ts & tab & p & MB & T & C & NP).
  { cbn [a_case sweep_args In]. destruct IC as [<-|[<-|[]]]; lia. }
  exists td, st, ts, tab, p. split; [exact R|]. split; [exact MB|]. split; [intros i; exact trying_real|]. intros FE i.
  destruct MB as (data & _ & _ & _ & A4). pose proof (parts _ _ _ _ _ _ _ _ _ _ A4) as [Cr Md].
  assert (DM : ~ 40 == 0) by (intros X; discriminate X). pose proof (made_well_formed _ _ _ _ _ _ _ T C NP Md 40 DM) as WF.
  exact (trying_reaches ts tab 40 p (wf_reserved _ _ _ WF) (wf_plain _ _ _ WF) Cr FE).
Qed.
