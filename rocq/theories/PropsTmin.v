(** * PropsTmin: what the sweep over the minimal time shows (C90) *)

From Coq Require Import List String ZArith QArith Bool Lia Lqa.
From Verif Require Import Base BaseFacts Pulp Helpers LinearSolver Converters Results DataTables DataSets DataTimes Pipeline Runs Script TminPlot
  Spec SpecTables SpecSets SpecDurations SpecEnd SpecQubo SpecNames SpecResults SpecRuns SpecMinutes SpecScript Created EndFacts ResultFacts
  Builds SpecBuild RealData PropsReal PropsTotal PropsRuns PropsResults PropsScript.
Import ListNotations.
Open Scope string_scope.
Open Scope list_scope.

(** ** Specification *)

(** A run of solve_real_problem.py with the hybrid CQM sampler *)
Definition sweep_args (case t n : Z) (penalty : Q) : args := MkArgs case Integer "" "cqm" t n penalty false.

(** The file of minimal time [t] is as a run with it left it, whatever ran since; [p] is the problem of the case. *)
Definition swept (f : files) (case t : Z) (p : lpproblem) : Prop :=
  exists o penalty n fa fb td st ts tab, (1 <= n)%Z /\ (forall i, real_samplers (o_samplers o i)) /\
    made_by o (sweep_args case t n penalty) td st ts tab p /\ tidy td st /\
    script o (sweep_args case t n penalty) fa = (fb, Ok tt) /\
    dget (samples_file o (sweep_args case t n penalty)) f = dget (samples_file o (sweep_args case t n penalty)) fb.

(** The entries in a file *)
Definition entries (f : files) (name : string) : list entry :=
  match dget name f with Some (Samples d) => map snd d | _ => [] end.

Definition network_name (case : Z) : string := "case" ++ str_of_Z case.

(** ** Lemmas *)

Lemma runs_list (g : Z -> res entry) l : NoDup l -> forall acc samples, (forall i, In i l -> ~ In i (dkeys acc)) ->
  foldM (fun samples i => do e <- g i; Ok (dset i e samples)) l acc = Ok samples ->
  exists es, Forall2 (fun i e => g i = Ok e) l es /\ samples = acc ++ combine l es.
Proof.
  induction 1 as [|k l NI ND IH]; intros acc samples D E; cbn [foldM] in E.
  - inversion E. exists []. split; [constructor|]. rewrite app_nil_r. reflexivity.
  - inv_bind E. inv_bind E0. inversion E0; subst a. rewrite dset_absent in E by (apply D; left; reflexivity).
    assert (D' : forall i, In i l -> ~ In i (dkeys (acc ++ [(k, a0)]))).
    { intros i I X. unfold dkeys in X. rewrite map_app in X. apply in_app_or in X as [X|[X|[]]]; [exact (D i (or_intror I) X)|]. cbn in X. subst i. exact (NI I). }
    destruct (IH _ _ D' E) as (es & F & ->).
    exists (a0 :: es). split; [constructor; assumption|]. rewrite <- app_assoc. reflexivity.
Qed.

Lemma forall2_length {A B} (P : A -> B -> Prop) l l' : Forall2 P l l' -> List.length l = List.length l'.
Proof. induction 1; cbn; congruence. Qed.

Lemma forall2_at {A B} (P : A -> B -> Prop) l l' k b : Forall2 P l l' -> nth_error l' k = Some b -> exists a, nth_error l k = Some a /\ P a b.
Proof. intros F. revert k. induction F as [|x y l l' H F IH]; intros [|k] E; cbn in *; try discriminate; [injection E as <-; eauto|auto]. Qed.

Lemma sweep_name o case t n penalty : samples_file o (sweep_args case t n penalty) = tmin_file "cqm" (network_name case) t.
Proof.
  unfold samples_file, quantum_file, tmin_file, network_name, p_text, case_text. cbn [sweep_args a_solve_quantum a_min_t a_case a_category category_text].
  change (eqb "cqm" "cqm") with true. change (lmem "cqm" ["cqm"; "bqm"]) with true. reflexivity.
Qed.

(** What the record of C82 says of an entry *)
Definition right_sample (p : lpproblem) (e : entry) : Prop :=
  in_range p (values (e_sample e)) /\ e_objective e == obj_value p (values (e_sample e)) /\
  (e_feasible e = true <-> feasible p (values (e_sample e))).

Lemma swept_inv f case t p : swept f case t p ->
  exists l, dget (tmin_file "cqm" (network_name case) t) f =
      Some (Samples (combine (map (fun n => Z.of_nat n + 1)%Z (seq 0 (List.length l))) l)) /\
    l <> [] /\ forall e, In e l -> right_sample p e.
Proof.
  intros (o & penalty & n & fa & fb & td & st & ts & tab & Hn & RS & MB & T & S & G). rewrite sweep_name in G. rewrite G.
  set (a := sweep_args case t n penalty) in *.
  unfold script in S. destruct (lmem (a_case a) _); cbn [negb] in S; [|discriminate S].
  destruct (prepare o a) as [[[[t0 ts0] tab0] p0]|] eqn:P; [|discriminate S]. destruct (lmem (a_solve_quantum a) _); cbn [negb] in S; [|discriminate S].
  change (lp_part o a (t0, ts0, tab0, p0) fa) with (fa, Ok tt : res unit) in S. cbn beta iota in S.
  unfold quantum_part in S. change (method_of (a_solve_quantum a)) with (Some Cqm) in S. change (a_show a) with false in S. cbn beta iota in S.
  destruct (solve_runs o a Cqm p0) as [samples|] eqn:R; [|discriminate S]. injection S as S. subst fb.
  destruct (prepare_ok _ _ _ _ _ _ P) as (td' & st' & MB' & _).
  assert (E0 : p0 = p).
  { destruct MB as (d1 & A1 & A2 & A3 & A4), MB' as (d2 & B1 & B2 & B3 & B4). assert (d2 = d1) by congruence. assert (st' = st) by congruence. subst.
    assert (td' = td) by congruence. subst. rewrite A4 in B4. injection B4 as _ _ B4. symmetry. exact B4. }
  subst p0. clear MB' P.
  unfold solve_runs in R. cbv zeta iota in R.
  destruct (runs_list (fun i => solve_on_quantum (o_samplers o i) p Cqm []) (run_numbers a) (numbers_nodup a) [] samples (fun _ _ X => X) R) as (es & F & ->).
  cbn [app]. assert (L : List.length es = Z.to_nat n).
  { apply forall2_length in F. unfold run_numbers in F. rewrite map_length, seq_length in F. change (a_runs a) with n in F. congruence. }
  exists es. split; [|split].
  - rewrite <- (sweep_name o case t n penalty). fold a. rewrite dget_dset. destruct (eq_dec (samples_file o a) (samples_file o a)) as [_|N]; [|congruence].
    unfold run_numbers. change (a_runs a) with n. rewrite L. reflexivity.
  - destruct es; [cbn in L; lia|discriminate].
  - intros e I. apply In_nth_error in I as (k & N). destruct (forall2_at _ _ _ k e F N) as (i & _ & Q).
    destruct MB as (data & _ & _ & _ & A4). assert (D0 : 0 <= 40) by discriminate.
    assert (RR : right_record p (MkRun 0 0 0 (Some (e_objective e)) (Some (e_feasible e)) (Some (e_sample e))
      (Some (Z.of_nat (List.length (p_constraints p)) - Z.of_nat (snd (e_constraints e)))%Z))).
    { eapply record_right; [exact T|exact D0|exact A4|exact (RS i)|exact Q|reflexivity..]. }
    destruct RR as (d & q & b & m & R1 & R2 & R3 & _ & R5 & R6 & _ & _ & R8). cbn in R1, R2, R3. injection R1 as <-. injection R2 as <-. injection R3 as <-.
    split; [exact R5|]. split; [exact R6|exact R8].
Qed.

Definition numbered (l : list entry) : dict Z entry := combine (map (fun n => Z.of_nat n + 1)%Z (seq 0 (List.length l))) l.

Lemma numbered_get (l : list entry) : forall k i e, nth_error l i = Some e ->
  dget (Z.of_nat (k + i) + 1)%Z (combine (map (fun n => Z.of_nat n + 1)%Z (seq k (List.length l))) l) = Some e.
Proof.
  induction l as [|x l IH]; intros k [|i] e N; try discriminate N; cbn [List.length seq map combine dget].
  - cbn in N. injection N as ->. rewrite Nat.add_0_r. destruct (eq_dec (Z.of_nat k + 1)%Z (Z.of_nat k + 1)%Z); congruence.
  - destruct (eq_dec _ _) as [E|_]; [lia|]. replace (k + S i)%nat with (S k + i)%nat by lia. apply IH. exact N.
Qed.

Lemma mapM_numbered {B} (h : entry -> B) (d : dict Z entry) (l : list entry) : forall k, (forall i e, nth_error l i = Some e -> dget (Z.of_nat (k + i) + 1)%Z d = Some e) ->
  mapM (fun i => do e <- dlookup (Z.of_nat i + 1)%Z d; Ok (h e)) (seq k (List.length l)) = Ok (map h l).
Proof.
  induction l as [|x l IH]; intros k H; [reflexivity|]. cbn [List.length seq mapM map]. unfold dlookup at 1.
  pose proof (H 0%nat x eq_refl) as H0. rewrite Nat.add_0_r in H0. rewrite H0. cbn [bind].
  rewrite (IH (S k)); [reflexivity|]. intros i e N. replace (S k + i)%nat with (k + S i)%nat by lia. apply H. exact N.
Qed.

Lemma numbered_length l : List.length (numbered l) = List.length l.
Proof. unfold numbered. rewrite combine_length, map_length, seq_length. lia. Qed.

Lemma objectives_numbered l : tmin_objectives (numbered l) = if forallb e_feasible l then Ok (map (fun e => e_objective e * 40) l) else Err AssertionError.
Proof.
  unfold tmin_objectives. rewrite numbered_length. rewrite (mapM_numbered (fun e => e_objective e * 40)) by (intros i e N; exact (numbered_get l 0 i e N)). cbn [bind].
  rewrite (mapM_numbered e_feasible) by (intros i e N; exact (numbered_get l 0 i e N)). cbn [bind].
  assert (E : forallb (fun b : bool => b) (map e_feasible l) = forallb e_feasible l) by (induction l as [|x l IH]; cbn; [reflexivity|rewrite IH; reflexivity]).
  rewrite E. reflexivity.
Qed.

Lemma numbered_entries f name l : dget name f = Some (Samples (numbered l)) -> entries f name = l.
Proof.
  intros G. unfold entries. rewrite G. clear G. unfold numbered. generalize 0%nat. induction l as [|x l IH]; intros k; cbn; [reflexivity|]. rewrite IH. reflexivity.
Qed.

Lemma min_found l : l <> [] -> exists m, np_min l = Ok m /\ In m l /\ forall y, In y l -> m <= y.
Proof.
  destruct l as [|x l]; [congruence|]. intros _. cbn [np_min].
  assert (H : forall x, let m := fold_left (fun m y => if Qle_bool m y then m else y) l x in In m (x :: l) /\ forall y, In y (x :: l) -> m <= y).
  { induction l as [|y l IH]; intros x0; cbn [fold_left]; cbv zeta.
    - split; [left; reflexivity|]. intros y [<-|[]]. lra.
    - destruct (Qle_bool x0 y) eqn:E.
      + apply Qle_bool_iff in E. destruct (IH x0) as [I M]. split; [destruct I as [I|I]; [left; exact I|right; right; exact I]|].
        intros z [<-|[<-|I']]; [apply M; left; reflexivity| |apply M; right; exact I']. apply (Qle_trans _ x0); [apply M; left; reflexivity|exact E].
      + assert (L : y <= x0) by (destruct (Qlt_le_dec y x0) as [Q|Q]; [apply Qlt_le_weak; exact Q|apply Qle_bool_iff in Q; congruence]).
        destruct (IH y) as [I M]. split; [right; exact I|].
        intros z [<-|[<-|I']]; [|apply M; left; reflexivity|apply M; right; exact I']. apply (Qle_trans _ y); [apply M; left; reflexivity|exact L]. }
  eexists. split; [reflexivity|]. apply H.
Qed.

Lemma max_found l : l <> [] -> exists m, np_max l = Ok m /\ In m l /\ forall y, In y l -> y <= m.
Proof.
  destruct l as [|x l]; [congruence|]. intros _. cbn [np_max].
  assert (H : forall x, let m := fold_left (fun m y => if Qle_bool m y then y else m) l x in In m (x :: l) /\ forall y, In y (x :: l) -> y <= m).
  { induction l as [|y l IH]; intros x0; cbn [fold_left]; cbv zeta.
    - split; [left; reflexivity|]. intros y [<-|[]]. lra.
    - destruct (Qle_bool x0 y) eqn:E.
      + apply Qle_bool_iff in E. destruct (IH y) as [I M]. split; [right; exact I|].
        intros z [<-|[<-|I']]; [|apply M; left; reflexivity|apply M; right; exact I']. apply (Qle_trans _ y); [exact E|apply M; left; reflexivity].
      + assert (L : y <= x0) by (destruct (Qlt_le_dec y x0) as [Q|Q]; [apply Qlt_le_weak; exact Q|apply Qle_bool_iff in Q; congruence]).
        destruct (IH x0) as [I M]. split; [destruct I as [I|I]; [left; exact I|right; right; exact I]|].
        intros z [<-|[<-|I']]; [apply M; left; reflexivity| |apply M; right; exact I']. apply (Qle_trans _ x0); [exact L|apply M; left; reflexivity]. }
  eexists. split; [reflexivity|]. apply H.
Qed.

Lemma length_pos (l : list Q) : l <> [] -> 0 < inject_Z (Z.of_nat (List.length l)).
Proof. destruct l; [congruence|]. intros _. cbn [List.length]. unfold Qlt, inject_Z. cbn [Qnum Qden]. lia. Qed.

Lemma mean_sum l : l <> [] -> np_mean l * inject_Z (Z.of_nat (List.length l)) == fold_right Qplus 0 l.
Proof. intros NE. pose proof (length_pos l NE). unfold np_mean. field. lra. Qed.

Lemma sum_bounds l a b : (forall y, In y l -> a <= y <= b) ->
  a * inject_Z (Z.of_nat (List.length l)) <= fold_right Qplus 0 l <= b * inject_Z (Z.of_nat (List.length l)).
Proof.
  induction l as [|x l IH]; intros H.
  - cbn [List.length fold_right]. change (inject_Z (Z.of_nat 0)) with 0. split; lra.
  - cbn [fold_right List.length]. rewrite Nat2Z.inj_succ. unfold Z.succ. rewrite inject_Z_plus.
    destruct (IH (fun y I => H y (or_intror I))) as [I1 I2]. destruct (H x (or_introl eq_refl)) as [H1 H2].
    change (inject_Z 1) with 1. split; lra.
Qed.

Lemma mean_between l a b : l <> [] -> (forall y, In y l -> a <= y <= b) -> a <= np_mean l <= b.
Proof.
  intros NE H. pose proof (length_pos l NE) as P. pose proof (mean_sum l NE) as M. destruct (sum_bounds l a b H) as [S1 S2]. rewrite <- M in S1, S2.
  split; apply (Qmult_le_r _ _ (inject_Z (Z.of_nat (List.length l)))); assumption.
Qed.

Lemma mapM_map {A B} (h : A -> res B) (g : A -> B) l : (forall x, In x l -> h x = Ok (g x)) -> mapM h l = Ok (map g l).
Proof. induction l as [|x l IH]; intros H; [reflexivity|]. cbn [mapM map]. rewrite (H x) by (left; reflexivity). cbn [bind]. rewrite IH by (intros y I; apply H; right; exact I). reflexivity. Qed.

(** ** The sweep *)

(** The line that is drawn for CPLEX, as the paper has it *)
Definition cplex_line (case : Z) (z : Q) : Prop := (case = 7%Z /\ z == 18875 # 100) \/ (case = 9%Z /\ z == 1855 # 10).

(** C90. The plot of a sweep whose files were left by solve_real_problem.py refuses exactly if a stored sample is not feasible.
    Otherwise it shows for each minimal time the mean of the objectives in minutes of the stored samples, between the least and the
    largest of them, all of which are of feasible solutions; so no point lies below an optimum. *)
Theorem C90_sweep : forall f case tmins p, In case [7; 9]%Z -> tmins <> [] -> (forall t, In t tmins -> swept f case t p) ->
  let stored t := entries f (tmin_file "cqm" (network_name case) t) in
  let minutes t := map (fun e => e_objective e * 40) (stored t) in
  (plotting_objective f "cqm" (network_name case) tmins = Err AssertionError <-> exists t e, In t tmins /\ In e (stored t) /\ e_feasible e = false) /\
  ((forall t e, In t tmins -> In e (stored t) -> e_feasible e = true) ->
   exists s, plotting_objective f "cqm" (network_name case) tmins = Ok s /\
     List.length (sw_mean s) = List.length tmins /\ List.length (sw_min s) = List.length tmins /\
     List.length (sw_max s) = List.length tmins /\ List.length (sw_cplex s) = List.length tmins /\
     forall k t, nth_error tmins k = Some t -> exists mean low high c,
       nth_error (sw_mean s) k = Some mean /\ nth_error (sw_min s) k = Some low /\ nth_error (sw_max s) k = Some high /\
       nth_error (sw_cplex s) k = Some c /\ cplex_line case c /\
       mean * inject_Z (Z.of_nat (List.length (stored t))) == fold_right Qplus 0 (minutes t) /\ low <= mean <= high /\
       In low (minutes t) /\ In high (minutes t) /\ (forall y, In y (minutes t) -> low <= y <= high) /\
       (exists x, feasible p x /\ low == obj_value p x * 40) /\ (exists x, feasible p x /\ high == obj_value p x * 40) /\
       (forall x, optimal p x -> obj_value p x * 40 <= low)).
Proof.
  intros f case tmins p IC NE SW stored minutes.
  assert (ST : forall t, In t tmins -> dget (tmin_file "cqm" (network_name case) t) f = Some (Samples (numbered (stored t))) /\ stored t <> [] /\
    forall e, In e (stored t) -> right_sample p e).
  { intros t I. destruct (swept_inv f case t p (SW t I)) as (l & G & N & R). fold (numbered l) in G. unfold stored. rewrite (numbered_entries _ _ _ G). auto. }
  assert (ONE : forall t, In t tmins -> (do data <- load_data f "cqm" (network_name case) t; tmin_objectives data) =
    if forallb e_feasible (stored t) then Ok (minutes t) else Err AssertionError).
  { intros t I. destruct (ST t I) as (G & _). unfold load_data. rewrite G. cbn [bind]. apply objectives_numbered. }
  assert (GOOD : (forall t e, In t tmins -> In e (stored t) -> e_feasible e = true) ->
    exists s lows highs c, plotting_objective f "cqm" (network_name case) tmins = Ok s /\ sw_mean s = map (fun t => np_mean (minutes t)) tmins /\
      sw_min s = lows /\ sw_max s = highs /\ sw_cplex s = map (fun _ => c) tmins /\ cplex_line case c /\
      Forall2 (fun t m => np_min (minutes t) = Ok m) tmins lows /\ Forall2 (fun t m => np_max (minutes t) = Ok m) tmins highs).
  { intros A. unfold plotting_objective.
    rewrite (mapM_map _ minutes); [cbn [bind]|].
    2:{ intros t I. rewrite (ONE t I). assert (X : forallb e_feasible (stored t) = true) by (apply forallb_forall; intros e Ie; exact (A t e I Ie)). rewrite X. reflexivity. }
    assert (NEM : forall t, In t tmins -> minutes t <> []).
    { intros t I X. destruct (ST t I) as (_ & N & _). apply N. unfold minutes in X. destruct (stored t); [reflexivity|discriminate X]. }
    destruct (TimeFacts.mapM_total np_min (map minutes tmins)) as (lows & E1).
    { intros l I. apply in_map_iff in I as (t & <- & I). destruct (min_found _ (NEM t I)) as (m & E & _). eauto. }
    destruct (TimeFacts.mapM_total np_max (map minutes tmins)) as (highs & E2).
    { intros l I. apply in_map_iff in I as (t & <- & I). destruct (max_found _ (NEM t I)) as (m & E & _). eauto. }
    rewrite E1. cbn [bind]. rewrite E2. cbn [bind]. destruct tmins as [|t0 tl] eqn:ET; [congruence|]. rewrite <- ET in *. cbn [bind].
    assert (C : exists c, cplex_objective (network_name case) = Ok c /\ cplex_line case c).
    { destruct IC as [<-|[<-|[]]]; eexists; split; try reflexivity; [left|right]; split; reflexivity. }
    destruct C as (c & C1 & C2). rewrite C1. cbn [bind].
    assert (TR : forall (h : list Q -> res Q) ys, mapM h (map minutes tmins) = Ok ys -> Forall2 (fun t m => h (minutes t) = Ok m) tmins ys).
    { intros h ys E. apply mapM_ok in E. clear - E. revert ys E. induction tmins as [|t l IH]; intros ys E; inversion E; subst; constructor; auto. }
    eexists. exists lows, highs, c. split; [reflexivity|]. cbn [sw_mean sw_min sw_max sw_cplex]. rewrite map_map.
    split; [reflexivity|]. split; [reflexivity|]. split; [reflexivity|]. split; [reflexivity|]. split; [exact C2|]. split; apply TR; assumption. }
  split.
  - split.
    + intros E. destruct (forallb (fun t => forallb e_feasible (stored t)) tmins) eqn:F.
      * exfalso. destruct GOOD as (s & _ & _ & _ & E' & _); [|congruence]. intros t e It Ie. rewrite forallb_forall in F. specialize (F t It). rewrite forallb_forall in F. auto.
      * clear GOOD E SW ST ONE NE IC. induction tmins as [|t l IH]; [discriminate F|]. cbn [forallb] in F. apply andb_false_iff in F as [F|F].
        -- exists t. assert (X : exists e, In e (stored t) /\ e_feasible e = false).
           { induction (stored t) as [|e es IHe]; [discriminate F|]. cbn [forallb] in F. apply andb_false_iff in F as [F|F]; [exists e; split; [left; reflexivity|exact F]|].
             destruct (IHe F) as (e' & I & Q). exists e'. split; [right; exact I|exact Q]. }
           destruct X as (e & I & Q). exists e. split; [left; reflexivity|]. split; assumption.
        -- destruct (IH F) as (t' & e & I & Q). exists t', e. split; [right; exact I|exact Q].
    + intros (t & e & It & Ie & Fe). unfold plotting_objective.
      assert (X : mapM (fun t => do data <- load_data f "cqm" (network_name case) t; tmin_objectives data) tmins = Err AssertionError).
      { clear GOOD NE SW ST. revert t e It Ie Fe ONE. induction tmins as [|t0 l IH]; intros t e It Ie Fe ONE; [destruct It|]. cbn [mapM].
        rewrite (ONE t0) by (left; reflexivity). destruct (forallb e_feasible (stored t0)) eqn:F; [|reflexivity]. cbn [bind].
        destruct It as [->|It]; [rewrite forallb_forall in F; rewrite (F e Ie) in Fe; discriminate Fe|].
        rewrite (IH t e It Ie Fe); [reflexivity|]. intros t1 I1. apply ONE. right. exact I1. }
      rewrite X. reflexivity.
  - intros A. destruct (GOOD A) as (s & lows & highs & c & E & M & E1 & E2 & EC & CL & F1 & F2). exists s. split; [exact E|].
    rewrite M, E1, E2, EC, !map_length. rewrite <- (forall2_length _ _ _ F1), <- (forall2_length _ _ _ F2). do 4 (split; [reflexivity|]).
    intros k t N. pose proof (nth_error_In _ _ N) as I. destruct (ST t I) as (_ & NES & R).
    assert (NEM : minutes t <> []) by (unfold minutes; destruct (stored t); [congruence|discriminate]).
    assert (AT : forall (P : Z -> Q -> Prop) ys, Forall2 P tmins ys -> exists y, nth_error ys k = Some y /\ P t y).
    { intros P ys F. clear - F N. revert k N. induction F as [|x y l l' H F IH]; intros [|k] N; try discriminate N; cbn in *; [injection N as ->; eauto|auto]. }
    destruct (AT _ _ F1) as (low & N1 & L). destruct (AT _ _ F2) as (high & N2 & H).
    destruct (min_found _ NEM) as (low' & L' & IL & LL). assert (low' = low) by congruence. subst low'.
    destruct (max_found _ NEM) as (high' & H' & IH & HH). assert (high' = high) by congruence. subst high'.
    exists (np_mean (minutes t)), low, high, c.
    split; [rewrite nth_error_map, N; reflexivity|]. split; [exact N1|]. split; [exact N2|]. split; [rewrite nth_error_map, N; reflexivity|]. split; [exact CL|].
    assert (LN : List.length (minutes t) = List.length (stored t)) by (unfold minutes; apply map_length).
    split; [rewrite <- LN; apply mean_sum; exact NEM|].
    assert (B : forall y, In y (minutes t) -> low <= y <= high) by (intros y Iy; split; [apply LL|apply HH]; exact Iy).
    split; [apply mean_between; assumption|]. split; [exact IL|]. split; [exact IH|]. split; [exact B|].
    assert (FE : forall y, In y (minutes t) -> exists x, feasible p x /\ y == obj_value p x * 40).
    { intros y Iy. apply in_map_iff in Iy as (e & <- & Ie). destruct (R e Ie) as (_ & Q1 & Q2). exists (values (e_sample e)). split; [apply Q2; exact (A t e I Ie)|].
      rewrite Q1. reflexivity. }
    split; [exact (FE low IL)|]. split; [exact (FE high IH)|].
    intros x [_ OPT]. destruct (FE low IL) as (x' & Fx & ->). specialize (OPT x' Fx). lra.
Qed.
Print Assumptions C90_sweep.

(** C90. If every stored sample is an optimum, as a sampler that always reaches it would have it (C87), the mean and the envelope are one
    line, at the optimum in minutes. *)
Theorem C90_reached : forall f case tmins p x, In case [7; 9]%Z -> tmins <> [] -> (forall t, In t tmins -> swept f case t p) ->
  optimal p x -> (forall t e, In t tmins -> In e (entries f (tmin_file "cqm" (network_name case) t)) -> optimal p (values (e_sample e))) ->
  exists s, plotting_objective f "cqm" (network_name case) tmins = Ok s /\
    forall l y, In l [sw_mean s; sw_min s; sw_max s] -> In y l -> y == obj_value p x * 40.
Proof.
  intros f case tmins p x IC NE SW OP R. destruct (C90_sweep f case tmins p IC NE SW) as (_ & K). cbv zeta in K.
  assert (RS : forall t e, In t tmins -> In e (entries f (tmin_file "cqm" (network_name case) t)) -> right_sample p e).
  { intros t e It Ie. destruct (swept_inv f case t p (SW t It)) as (l & G & _ & Rl). fold (numbered l) in G. rewrite (numbered_entries _ _ _ G) in Ie. auto. }
  destruct K as (s & E & L1 & L2 & L3 & _ & K).
  { intros t e It Ie. apply (RS t e It Ie). apply (R t e It Ie). }
  exists s. split; [exact E|].
  assert (QO : forall t e, In t tmins -> In e (entries f (tmin_file "cqm" (network_name case) t)) -> e_objective e * 40 == obj_value p x * 40).
  { intros t e It Ie. destruct (RS t e It Ie) as (_ & Q & _). rewrite Q. destruct (R t e It Ie) as [F1 O1], OP as [F2 O2]. specialize (O1 x F2). specialize (O2 _ F1). lra. }
  assert (QM : forall t y, In t tmins -> In y (map (fun e => e_objective e * 40) (entries f (tmin_file "cqm" (network_name case) t))) -> y == obj_value p x * 40).
  { intros t y It Iy. apply in_map_iff in Iy as (e & <- & Ie). exact (QO t e It Ie). }
  assert (AT : forall (l : list Q) y, List.length l = List.length tmins -> In y l -> exists k t, nth_error tmins k = Some t /\ nth_error l k = Some y).
  { intros l y L I. apply In_nth_error in I as (k & N). destruct (nth_error tmins k) as [t|] eqn:T; [eauto|].
    apply nth_error_None in T. assert (nth_error l k <> None) by congruence. apply nth_error_Some in H. lia. }
  intros l y [<-|[<-|[<-|[]]]] I; (destruct (AT _ y L1 I) as (k & t & T & N) || destruct (AT _ y L2 I) as (k & t & T & N) || destruct (AT _ y L3 I) as (k & t & T & N));
    destruct (K k t T) as (mean & low & high & c & N1 & N2 & N3 & _ & _ & _ & [B1 B2] & Il & Ih & _);
    pose proof (nth_error_In _ _ T) as It; pose proof (QM t low It Il); pose proof (QM t high It Ih).
  - assert (y = mean) by congruence. subst y. lra.
  - assert (y = low) by congruence. subst y. assumption.
  - assert (y = high) by congruence. subst y. assumption.
Qed.
Print Assumptions C90_reached.

(** Sweeps over each of the two networks, as the zero sampler of C85 leaves them *)
Example C90_case : forall case, In case [7; 9]%Z -> exists f td st ts tab p,
  made_by zero_outside (sweep_args case 5 2 1) td st ts tab p /\ forall t, In t [5; 10]%Z -> swept f case t p.
Proof.
  intros case IC. assert (R : repository zero_outside) by (repeat split; reflexivity).
  assert (IA : forall t, In (a_case (sweep_args case t 2 1)) [0; 1; 2; 3; 4; 5; 6; 7; 8; 9]%Z) by (intros t; cbn [a_case sweep_args In]; destruct IC as [<-|[<-|[]]]; lia).
  destruct (C85_repository zero_outside (sweep_args case 5 2 1) R (IA 5%Z)) as (td & st & ts & tab & p & MB & T & C & NP).
  assert (AN : answering zero_outside p).
  { intros i c CC. pose proof MB as (data & _ & _ & _ & A4). pose proof (parts _ _ _ _ _ _ _ _ _ _ A4) as [Cr Md].
    assert (DM : ~ 40 == 0) by (intros X; discriminate X). pose proof (made_well_formed _ _ _ _ _ _ _ T C NP Md 40 DM) as WF.
    apply (zero_answers ts tab 40 p c); [discriminate|exact (wf_reserved _ _ _ WF)|exact Cr|exact CC]. }
  destruct (C85_answers zero_outside (sweep_args case 5 2 1) [] td st ts tab p (IA 5%Z) eq_refl eq_refl eq_refl eq_refl MB T C NP (fun _ => zero_real) AN) as (f1 & S1).
  destruct (C85_answers zero_outside (sweep_args case 10 2 1) f1 td st ts tab p (IA 10%Z) eq_refl eq_refl eq_refl eq_refl MB T C NP (fun _ => zero_real) AN) as (f2 & S2).
  exists f2, td, st, ts, tab, p. split; [exact MB|].
  destruct (C85_stored zero_outside (sweep_args case 10 2 1) f1 f2 eq_refl (or_intror (or_intror (or_intror (or_introl eq_refl)))) S2) as (_ & _ & _ & _ & _ & _ & _ & _ & _ & _ & O).
  intros t [<-|[<-|[]]].
  - exists zero_outside, 1, 2%Z, [], f1, td, st, ts, tab. split; [lia|]. split; [intros; apply zero_real|]. split; [exact MB|]. split; [exact T|]. split; [exact S1|].
    apply O. rewrite !sweep_name. destruct IC as [<-|[<-|[]]]; discriminate.
  - exists zero_outside, 1, 2%Z, f1, f2, td, st, ts, tab. split; [lia|]. split; [intros; apply zero_real|]. split; [exact MB|]. split; [exact T|]. split; [exact S2|]. reflexivity.
Qed.

(** Files with three and two feasible entries; with one that is not the script stops at its assertion *)
Definition with_objective (q : Q) (ok : bool) : entry := MkEntry 0 q ok [] ([], 0%nat).

Example C90_drawn_case :
  let a := [(1, with_objective 5 true); (2, with_objective 4 true); (3, with_objective 6 true)]%Z in
  let b ok := [(1, with_objective (9 # 2) true); (2, with_objective (11 # 2) ok)]%Z in
  let f ok := [("solutions_quantum/cqm5_case7_Integer.pkl", Samples a); ("solutions_quantum/cqm10_case7_Integer.pkl", Samples (b ok))] in
  (exists s, plotting_objective (f true) "cqm" "case7" [5; 10]%Z = Ok s /\
     map Qred (sw_mean s) = [200; 200] /\ map Qred (sw_min s) = [160; 180] /\ map Qred (sw_max s) = [240; 220] /\ map Qred (sw_cplex s) = [755 # 4; 755 # 4]) /\
  plotting_objective (f false) "cqm" "case7" [5; 10]%Z = Err AssertionError.
Proof. split; [eexists; split; [vm_compute; reflexivity|]; repeat split; reflexivity|vm_compute; reflexivity]. Qed.
