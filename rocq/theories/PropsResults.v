(** * PropsResults: constrained models, result lists and counts (C28, C30-C34, C50) *)

From Coq Require Import List String Ascii ZArith QArith Bool Lqa Lia Permutation.
From Verif Require Import Base Pulp Helpers LinearSolver BaseFacts Spec SpecFacts Origin Sound Check Examples SpecNames Names
  Converters Results SpecQubo SpecResults QuboFacts QuboModel Qubo Created Interp CqmFacts ResultFacts PropsIlp PropsVars PropsQubo.
Import ListNotations.
Open Scope string_scope.
Open Scope list_scope.

(** ** C28 *)

(** Samples of the constrained model count from the lower bounds of the variables (all 0 in problems made by
    create_linear_problem, so that sample and assignment are the same there: [created_samples]). *)
Theorem C28_same_problem : forall p cq, convert_to_cqm p = Ok cq ->
  (forall v lo, In v (variables p) -> v_lo v = Some lo -> is_int lo) ->
  (forall n, In n (dkeys (q_vars cq)) <-> exists v, In v (variables p) /\ v_name v = n) /\
  dkeys (q_constraints cq) = dkeys (p_constraints p) /\
  forall q x, counted_from_lower p q x ->
    (cqm_feasible cq q <-> feasible p x) /\ lin_value (q_objective cq) q == obj_value p x.
Proof.
  intros p cq H HL. split; [exact (cqm_labels p cq H)|]. split; [exact (cqm_names p cq H)|]. intros q x HX. split.
  - exact (cqm_same_feasible p cq H HL q x HX).
  - exact (cqm_same_objective p cq H q x HX).
Qed.
Print Assumptions C28_same_problem.

(** A problem made by create_linear_problem with integer variables is refused only if one of its constraints
    mentions no variable; one with a continuous variable is refused. *)
Theorem C28_created : forall ts tt d_max cat p,
  reserved_free ts -> create_linear_problem ts tt d_max cat = Ok p ->
  (cat = Integer ->
     ((exists cq, convert_to_cqm p = Ok cq) <->
      (forall n c, In (n, c) (p_constraints p) -> a_terms (c_aff c) <> []) /\
      (a_terms (p_objective p) = [] -> a_const (p_objective p) == 0))) /\
  (forall v, In v (variables p) -> v_cat v = Continuous -> exists e, convert_to_cqm p = Err e) /\
  (forall cq, convert_to_cqm p = Ok cq -> forall q,
     (cqm_feasible cq q <-> feasible p (fun i => q (id_name i))) /\
     lin_value (q_objective cq) q == obj_value p (fun i => q (id_name i))).
Proof.
  intros ts tt d cat p RF Hp. split; [|split].
  - intros ->. apply cqm_accepts; [exact (created_consistent _ _ _ _ _ RF Hp)|].
    intros v Hv. destruct (created_bounds _ _ _ _ _ RF Hp v (variables_occurs p v Hv)) as (Hl & [[Hu C]|[Hu C]]);
      (split; [exact C|]); [exists 0, d|exists 0, 1]; auto.
  - intros v Hv C. exact (cqm_continuous p v Hv C).
  - intros cq H q. apply (C28_same_problem p cq H).
    + intros v lo Hv Hl. destruct (created_bounds _ _ _ _ _ RF Hp v (variables_occurs p v Hv)) as (Hl' & _).
      rewrite Hl' in Hl. inversion Hl. exists 0%Z. reflexivity.
    + intros v lo Hv Hl. destruct (created_bounds _ _ _ _ _ RF Hp v (variables_occurs p v Hv)) as (Hl' & _).
      rewrite Hl' in Hl. inversion Hl. rewrite v_name_of. lra.
Qed.
Print Assumptions C28_created.

Definition small_cq : cqm := ok_or (convert_to_cqm small_p) (MkCqm [] [] (lin_const 0)).

Example small_cqm : convert_to_cqm small_p = Ok small_cq.
Proof. apply ok_or_ok. vm_compute. reflexivity. Qed.

(** The second train leaves one minute late; the sample is feasible for both. *)
Definition late_q (n : string) : Q := if eqb n "Delays_2_A" then 1 else if eqb n "y_1_2_one_station_A" then 1 else 0.

Example C28_case : cqm_feasible small_cq late_q /\ feasible small_p (fun i => late_q (id_name i)) /\
  dkeys (q_vars small_cq) = ["Delays_1_A"; "Delays_2_A"; "y_1_2_one_station_A"].
Proof.
  assert (F : feasible small_p (fun i => late_q (id_name i))) by (apply feasibleb_ok; vm_compute; reflexivity).
  split; [|split; [exact F|vm_compute; reflexivity]].
  destruct (C28_created _ _ _ _ _ small_reserved small_built) as (_ & _ & H). apply (H _ small_cqm). exact F.
Qed.

(** ** C30 *)

Theorem C30_report : forall p d, NoDup (dkeys (p_constraints p)) -> assigns p d ->
  exists r, analyze_constraints p d = Ok r /\ right_report p d r.
Proof. intros p d ND HA. destruct (analyze_right p d ND HA) as (r & H & R & _). eauto. Qed.
Print Assumptions C30_report.

(** ** C31 *)

Theorem C31_results : forall p rows, NoDup (dkeys (p_constraints p)) -> (forall d e, In (d, e) rows -> assigns p d) ->
  exists out, get_results rows p = Ok out /\
    Permutation rows (map (fun e => (e_sample e, e_energy e)) out) /\
    ordered_by e_objective out /\
    (forall l1 x l2 y l3, out = l1 ++ x :: l2 ++ y :: l3 -> e_objective x == e_objective y -> e_energy x <= e_energy y) /\
    forall e, In e out -> right_entry p e.
Proof. exact results_right. Qed.
Print Assumptions C31_results.

(** ** C32 *)

Theorem C32_best : forall p rows out, NoDup (dkeys (p_constraints p)) -> (forall d e, In (d, e) rows -> assigns p d) ->
  get_results rows p = Ok out ->
  (rows = [] -> get_best_feasible_sample out = Err IndexError) /\
  (rows <> [] -> exists e, get_best_feasible_sample out = Ok e /\ In e out /\ right_entry p e /\
     ((e_feasible e = true /\ forall e', In e' out -> e_feasible e' = true -> e_objective e <= e_objective e') \/
      ((forall e', In e' out -> e_feasible e' = false) /\ forall e', In e' out -> e_energy e <= e_energy e'))).
Proof.
  intros p rows out ND HA H. destruct (results_right p rows ND HA) as (out' & H' & PR & HO & _ & RE).
  assert (out' = out) by congruence. subst out'. split.
  - intros ->. apply Permutation_nil in PR. destruct out; [reflexivity|discriminate].
  - intros NE. destruct (best_ok out HO) as [[-> _]|(e & He & Hi & HB)].
    + exfalso. apply NE. apply Permutation_sym, Permutation_nil in PR. exact PR.
    + exists e. auto.
Qed.
Print Assumptions C32_best.

(** Two samples: one breaks a rule but is cheaper, one keeps all rules. *)
Definition late : dict string Q := [("Delays_1_A", 0); ("Delays_2_A", 1); ("y_1_2_one_station_A", 1)].
Definition crash : dict string Q := [("Delays_1_A", 0); ("Delays_2_A", 0); ("y_1_2_one_station_A", 1)].

Example late_assigns : assigns small_p late /\ assigns small_p crash.
Proof.
  assert (G : forall d, (forall v, In v (variables small_p) -> In (v_name v) (dkeys d)) -> assigns small_p d).
  { intros d H v Hv. destruct (occurs_variables small_p v Hv) as (w & Hw & E). rewrite <- (same_id_name w v E). auto. }
  split; apply G; intros v Hv; vm_compute in Hv; repeat destruct Hv as [<-|Hv]; try (destruct Hv); vm_compute; auto.
Qed.

Example C30_case : analyze_constraints small_p crash =
    Ok ([("minimal_span_2_1_A_B", false); ("minimal_span_1_2_A_B", true)], 1%nat) /\
  analyze_constraints small_p late =
    Ok ([("minimal_span_2_1_A_B", true); ("minimal_span_1_2_A_B", true)], 2%nat).
Proof. split; vm_compute; reflexivity. Qed.

Example C31_case : exists a b, get_results [(late, 2); (crash, 5)] small_p = Ok [a; b] /\
  e_sample a = crash /\ e_feasible a = false /\ e_sample b = late /\ e_feasible b = true /\
  get_best_feasible_sample [a; b] = Ok b.
Proof. do 2 eexists. split; [vm_compute; reflexivity|]. repeat split. Qed.

(** ** C33 *)

Lemma created_assigns p d : (forall v, In v (variables p) -> In (v_name v) (dkeys d)) -> assigns p d.
Proof. intros H v Hv. destruct (occurs_variables p v Hv) as (w & Hw & E). rewrite <- (same_id_name w v E). auto. Qed.

(** Whatever the sampler does, all values that reach the report are in range. *)
Theorem C33_in_range : forall ts tt d_max cat p o m pdict rows,
  reserved_free ts -> create_linear_problem ts tt d_max cat = Ok p -> real_samplers o ->
  q_process o p m pdict = Ok rows ->
  forall d e, In (d, e) rows -> assigns p d /\ in_range p (values d).
Proof.
  intros ts tt dm cat p o m pdict rows RF Hp [SB SC] H.
  assert (CASES : (exists b i, convert_to_bqm p pdict = Ok (b, i) /\ i (sample_bqm o m b) = Ok rows) \/
                  (exists c, convert_to_cqm p = Ok c /\ rows = sample_cqm o c)).
  { unfold q_process in H. destruct m; try (left; inv_bind H; destruct a as [b i]; exists b, i; auto; fail).
    right. inv_bind H. inversion H. eauto. }
  destruct (created_conditions _ _ _ _ _ RF Hp) as (HC & HA & _).
  destruct CASES as [(b & i & CB & HI)|(c & CC & ->)]; intros d e He.
  - destruct (C29_decoding p pdict b i HC HA CB) as [R _].
    destruct (R (sample_bqm o m b) (fun s e => SB m b s e)) as (out & rows' & Ho & _ & _ & F).
    assert (out = rows) by congruence. subst out.
    apply in_split in He as (l1 & l2 & ->). apply Forall2_app_inv_r in F as (m1 & m2 & _ & F2 & _).
    inversion F2 as [|se ? m3 ? (_ & D1 & D2 & D3) _]; subst. cbn [fst] in *. split.
    + apply created_assigns. intros v Hv. apply D2. eauto.
    + intros v Hv. destruct (D3 v Hv) as (q & G & _ & OK). unfold values. rewrite <- v_name_of, G. exact OK.
  - destruct (SC c d e He) as [K T]. split.
    + apply created_assigns. intros v Hv. apply K. apply (cqm_labels p c CC). eauto.
    + destruct (cqm_split p c CC) as (t & H1 & _).
      destruct (cqm_vars _ _ _ _ _ (variables_nodup p) H1) as (A1 & _).
      intros v Hv. destruct (A1 v Hv) as (ty & ty' & off & TV & _ & G & S). apply dget_in in G.
      specialize (T _ _ G). apply (same_in _ _ _ S) in T.
      destruct (type_lower _ _ _ TV) as (lo & Hlo & El).
      destruct (created_bounds _ _ _ _ _ RF Hp v (variables_occurs p v Hv)) as (Hl' & _).
      assert (lo = 0) by congruence. subst lo.
      apply (type_in_range _ _ _ _ TV) in T; [|exists 0%Z; rewrite <- El; reflexivity].
      unfold values. rewrite <- v_name_of. set (q := match dget (v_name v) d with Some q => q | None => 0 end) in *.
      destruct T as (R1 & R2 & R3). split; [|split].
      * intros a Ha. specialize (R1 a Ha). lra.
      * intros a Ha. specialize (R2 a Ha). lra.
      * intros C. destruct (R3 C) as [z Hz]. exists z. rewrite <- Hz, <- El. lra.
Qed.
Print Assumptions C33_in_range.

Lemma feasible_conflict_free ts tt d_max cat p x :
  reserved_free ts -> none_free tt -> 0 <= d_max -> create_linear_problem ts tt d_max cat = Ok p -> feasible p x ->
  conflict_free ts tt d_max p x.
Proof.
  intros H1 H2 H3 H4 H5. constructor.
  - exact (C01_headway ts tt d_max cat p x H1 H2 H3 H4 H5).
  - exact (C02_single_line ts tt d_max cat p x H1 H2 H3 H4 H5).
  - exact (C03_minimal_stay ts tt d_max cat p x H1 H2 H4 H5).
  - exact (C04_station_track_partial ts tt d_max cat p x H1 H2 H3 H4 H5).
  - exact (C05_switches ts tt d_max cat p x H1 H2 H3 H4 H5).
  - exact (C06_circulation ts tt d_max cat p x H1 H2 H3 H4 H5).
  - exact (C07_departure_bounds ts tt d_max cat p x H1 H2 H3 H4 H5).
Qed.

Theorem C33_feasible_flag : forall ts tt d_max cat p o m pdict rows out,
  reserved_free ts -> none_free tt -> 0 <= d_max ->
  create_linear_problem ts tt d_max cat = Ok p -> real_samplers o ->
  q_process o p m pdict = Ok rows -> get_results rows p = Ok out ->
  forall e, In e out -> e_feasible e = true ->
    feasible p (values (e_sample e)) /\ conflict_free ts tt d_max p (values (e_sample e)) /\
    e_objective e == obj_value p (values (e_sample e)).
Proof.
  intros ts tt dm cat p o m pdict rows out RF NF Pos Hp RS HQ HG e He Fe.
  pose proof (C33_in_range ts tt dm cat p o m pdict rows RF Hp RS HQ) as R.
  destruct (created_apart _ _ _ _ _ RF Hp) as (ND & _).
  destruct (results_right p rows ND (fun d e H => proj1 (R d e H))) as (out' & H' & _ & _ & _ & RE).
  assert (out' = out) by congruence. subst out'.
  destruct (RE e He) as (EO & EF & _). destruct (results_inv p rows out HG e He) as (d & q & Hd & <- & _).
  assert (F : feasible p (values (e_sample e))) by (split; [apply EF; exact Fe|exact (proj2 (R _ _ Hd))]).
  split; [exact F|]. split; [|exact EO]. exact (feasible_conflict_free ts tt dm cat p _ RF NF Pos Hp F).
Qed.
Print Assumptions C33_feasible_flag.

(** The answer of solve_on_quantum itself *)
Theorem C33_solution : forall ts tt d_max cat p o m pdict e,
  reserved_free ts -> none_free tt -> 0 <= d_max ->
  create_linear_problem ts tt d_max cat = Ok p -> real_samplers o ->
  solve_on_quantum o p m pdict = Ok e -> e_feasible e = true ->
  conflict_free ts tt d_max p (values (e_sample e)).
Proof.
  intros ts tt dm cat p o m pdict e RF NF Pos Hp RS H Fe. unfold solve_on_quantum in H. inv_bind H. inv_bind H.
  apply (C33_feasible_flag ts tt dm cat p o m pdict a a0 RF NF Pos Hp RS E E0); [|exact Fe].
  unfold get_best_feasible_sample in H. destruct (find e_feasible a0) as [e'|] eqn:F.
  - inversion H; subst. apply find_some in F. tauto.
  - unfold lnth in H. destruct (nth_error (sorted_by e_energy a0) 0) as [e'|] eqn:N; [|discriminate]. inversion H; subst.
    apply nth_error_In in N. eapply Permutation_in; [symmetry; apply (sorted_perm e_energy)|exact N].
Qed.
Print Assumptions C33_solution.

(** A sampler that returns the sample in which the second train waits *)
Definition small_samplers : samplers := MkSamplers (fun _ _ => [])
  (fun c => match q_vars c with
            | [(n1, CInteger u1); (n2, CInteger u2); (n3, CBinary)] =>
                if Qle_bool 0 u1 && Qle_bool 1 u2 && eqb [n1; n2; n3] ["Delays_1_A"; "Delays_2_A"; "y_1_2_one_station_A"]
                then [(late, 0)] else []
            | _ => []
            end).

Example small_real : real_samplers small_samplers.
Proof.
  split; [intros m b s e []|]. intros c d e. cbn [sample_cqm small_samplers].
  destruct (q_vars c) as [|[n1 [|u1]] [|[n2 [|u2]] [|[n3 [|u3]] [|? ?]]]] eqn:EV; try (intros []).
  destruct (Qle_bool 0 u1 && Qle_bool 1 u2 && eqb [n1; n2; n3] ["Delays_1_A"; "Delays_2_A"; "y_1_2_one_station_A"]) eqn:E; [|intros []].
  rewrite !andb_true_iff in E. destruct E as [[U1 U2] E]. apply eqb_eq in E. inversion E; subst. apply Qle_bool_iff in U1, U2.
  intros [H|[]]. inversion H; subst. split.
  - intros n [<-|[<-|[<-|[]]]]; cbn; auto.
  - intros n t Hn. rewrite EV in Hn. destruct Hn as [Hn|[Hn|[Hn|[]]]]; inversion Hn; subst.
    + change (in_type (CInteger u1) 0). split; [exists 0%Z; reflexivity|]. split; [apply Qle_refl|exact U1].
    + change (in_type (CInteger u2) 1). split; [exists 1%Z; reflexivity|]. split; [discriminate|exact U2].
    + change (in_type CBinary 1). right. reflexivity.
Qed.

Example C33_case : exists e, solve_on_quantum small_samplers small_p Cqm [] = Ok e /\ e_sample e = late /\
  conflict_free small_ts small_tt 3 small_p (values (e_sample e)).
Proof.
  assert (H : exists e, solve_on_quantum small_samplers small_p Cqm [] = Ok e /\ e_sample e = late /\ e_feasible e = true).
  { eexists. split; [vm_compute; reflexivity|]. split; reflexivity. }
  destruct H as (e & H & ES & F). exists e. split; [exact H|]. split; [exact ES|].
  apply (C33_solution small_ts small_tt 3 Integer small_p small_samplers Cqm [] e); auto using small_reserved, small_built, small_real.
  - intros j q H'. unfold initially in H'. apply dget_in in H'.
    unfold joined in H'. cbn [tt_init small_tt map join_us In] in H'.
    destruct H' as [H'|[H'|[]]]; apply (f_equal fst) in H'; cbn [fst] in H'; change (str PNone) with "None" in H';
      destruct (str j) as [|c1 [|c2 [|c3 [|c4 r]]]]; discriminate H'.
  - discriminate.
Qed.

(** ** C34 *)

Theorem C34_counts : forall b,
  number_of (fun kq : (string * string) * Q => ~ snd kq == 0) (b_quadratic b) (count_quadratic_couplings b) /\
  number_of (fun kq : string * Q => ~ snd kq == 0) (b_linear b) (count_linear_fields b).
Proof. intros b. split; apply count_nonzero. Qed.
Print Assumptions C34_counts.

Example C34_case : count_linear_fields (MkBqm [("a", 1); ("b", 0)] [(("a", "b"), -1)] 0) = 1%nat /\
  count_quadratic_couplings (MkBqm [("a", 1); ("b", 0)] [(("a", "b"), -1)] 0) = 1%nat.
Proof. split; reflexivity. Qed.

(** ** C50 *)

Lemma no_us_part c s : all_chars plain_char s = true -> str_contains (String c "_") s = false.
Proof.
  intros H. destruct (str_contains (String c "_") s) eqn:E; [|reflexivity]. apply str_contains_iff in E as (u & v & ->).
  rewrite all_chars_app in H. apply andb_true_iff in H as [_ H]. cbn in H. rewrite andb_false_r in H. discriminate.
Qed.

Lemma part_before_us c a r : c <> "_"%char -> all_chars plain_char a = true ->
  str_contains (String c "_") (a ++ "_" ++ r)%string = true ->
  (exists u, a = (u ++ String c "")%string) \/ str_contains (String c "_") r = true.
Proof.
  intros NC. induction a as [|d a IH]; intros H E.
  - right. cbn [append] in E. cbn [str_contains] in E. apply orb_true_iff in E as [E|E]; [|exact E].
    rewrite prefix_cons in E. destruct (ascii_dec c "_"); [contradiction|discriminate].
  - cbn [all_chars] in H. apply andb_true_iff in H as [H1 H2]. cbn [append str_contains] in E. apply orb_true_iff in E as [E|E].
    + left. rewrite prefix_cons in E. destruct (ascii_dec c d) as [->|]; [|discriminate].
      destruct a as [|e a]; [exists ""; reflexivity|]. cbn [append] in E. rewrite prefix_cons in E.
      destruct (ascii_dec "_" e) as [<-|]; [|discriminate]. cbn in H2. discriminate.
    + destruct (IH H2 E) as [[u ->]|R]; [left; exists (String d u); reflexivity|right; exact R].
Qed.

Lemma sanitize_head c d r : sanitize (String c (String d r)) = String (sanitize_char c) (String (sanitize_char d) (sanitize r)).
Proof. reflexivity. Qed.

Section Kinds.
  Variables (ts : train_sets) (tt : timetable) (d_max : Q) (cat : vcat) (p : lpproblem).
  Hypothesis RF : reserved_free ts.
  Hypothesis PN : plain_names ts.
  Hypothesis Hp : create_linear_problem ts tt d_max cat = Ok p.
  Hypothesis YZ : forall j, In j (ts_J ts) -> ~ ends_yz j.

  Lemma kind_of v : In v (variables p) ->
    (order_variable v /\ ~ delay_variable v /\ is_order_var v = true) \/
    (delay_variable v /\ ~ order_variable v /\ is_order_var v = false).
  Proof.
    intros Hv. destruct (problem_ids ts tt d_max cat p RF Hp v Hv) as (K & _). unfold is_order_var. rewrite v_name_id.
    unfold order_variable, delay_variable. destruct v as [pre idx lo up ca]. cbn [v_id v_prefix v_index] in *.
    destruct K as [(j & s & HD & E)|(q & w & HS & E)].
    - right. rewrite E, (delay_name ts PN j s HD). inversion E; subst. split; [reflexivity|].
      split; [intros [X|X]; discriminate X|].
      pose proof (delay_mentioned ts j s HD) as [Mj Ms]. pose proof (train_plain ts PN j Mj) as Pj.
      pose proof (station_plain ts PN s (or_intror Ms)) as Ps. destruct HD as (HJ & _).
      assert (G : forall c, c <> "_"%char -> (forall u, "Delays"%string <> (u ++ String c "")%string) ->
                  (forall u, str j <> (u ++ String c "")%string) ->
                  str_contains (String c "_") ("Delays_" ++ str j ++ "_" ++ str s)%string = false).
      { intros c NC ND NJ. destruct (str_contains (String c "_") ("Delays_" ++ str j ++ "_" ++ str s)%string) eqn:X; [|reflexivity].
        change ("Delays_" ++ str j ++ "_" ++ str s)%string with ("Delays" ++ "_" ++ (str j ++ "_" ++ str s))%string in X.
        apply part_before_us in X as [[u X]|X]; [exfalso; exact (ND u X)| |exact NC|reflexivity].
        apply part_before_us in X as [[u X]|X]; [exfalso; exact (NJ u X)| |exact NC|exact Pj].
        rewrite no_us_part in X by exact Ps. discriminate. }
      assert (LD : forall c u, "Delays"%string = (u ++ String c "")%string -> c = "s"%char).
      { intros c u X. destruct u as [|? [|? [|? [|? [|? [|? [|? ?]]]]]]]; cbn in X; inversion X; reflexivity. }
      rewrite (G "z"%char), (G "y"%char); [reflexivity| | | | | |].
      + discriminate.
      + intros u X. apply LD in X. discriminate.
      + intros u X. apply (YZ j HJ). exists u. left. exact X.
      + discriminate.
      + intros u X. apply LD in X. discriminate.
      + intros u X. apply (YZ j HJ). exists u. right. exact X.
    - left. rewrite E. destruct HS as (j & jp & _ & _ & HS).
      assert (W : exists r, (v_id w = ("y", r) \/ v_id w = ("z", r)) /\ exists a b, r = a :: b).
      { destruct HS as [(s & _ & -> & ->)|[(s & _ & -> & ->)|(s & sp & _ & _ & -> & ->)]];
          eexists; (split; [first [left; reflexivity|right; reflexivity]|do 2 eexists; reflexivity]). }
      destruct W as (r & [W|W] & a & b & ->); rewrite W in *; inversion E; subst;
        (split; [auto|]; split; [intros X; discriminate X|]); unfold name_of; cbn [fst snd map join_us append];
        rewrite sanitize_head; change (sanitize_char "_") with "_"%char;
        [change (sanitize_char "y") with "y"%char|change (sanitize_char "z") with "z"%char];
        apply orb_true_iff; [right|left]; cbn [str_contains]; apply orb_true_iff; left; apply prefix_iff; eexists; reflexivity.
  Qed.

  Lemma count_split l : (forall v, In v l -> In v (variables p)) -> forall n,
    exists k, fold_left (fun n v => if is_order_var v then S n else n) l n = (n + k)%nat /\
      number_of order_variable l k /\ number_of delay_variable l (List.length l - k) /\ (k <= List.length l)%nat.
  Proof.
    induction l as [|v l IH]; intros HI n; cbn [fold_left].
    - exists 0%nat. split; [lia|]. split; [constructor|]. split; [constructor|cbn; lia].
    - destruct (kind_of v (HI v (or_introl eq_refl))) as [(K1 & K2 & ->)|(K1 & K2 & ->)].
      + destruct (IH (fun w Hw => HI w (or_intror Hw)) (S n)) as (k & E & N1 & N2 & L). exists (S k).
        split; [lia|]. split; [apply number_yes; assumption|]. split; [|cbn [List.length]; lia].
        cbn [List.length]. replace (S (List.length l) - S k)%nat with (List.length l - k)%nat by lia. apply number_no; assumption.
      + destruct (IH (fun w Hw => HI w (or_intror Hw)) n) as (k & E & N1 & N2 & L). exists k.
        split; [lia|]. split; [apply number_no; assumption|]. split; [|cbn [List.length]; lia].
        cbn [List.length]. replace (S (List.length l) - k)%nat with (S (List.length l - k)) by lia. apply number_yes; assumption.
  Qed.
End Kinds.

(** C50 (partial): right unless the name of a train ends in y or z ([C50_train_refuted]). *)
Theorem C50_counts_partial : forall ts tt d_max cat p,
  reserved_free ts -> plain_names ts -> create_linear_problem ts tt d_max cat = Ok p ->
  (forall j, In j (ts_J ts) -> ~ ends_yz j) ->
  exists order delays, count_vars p = (order, delays, List.length (p_constraints p)) /\
    number_of order_variable (variables p) order /\ number_of delay_variable (variables p) delays /\
    (order + delays = List.length (variables p))%nat /\
    (forall x, feasible p x -> check_count_vars p x = Ok (count_vars p)).
Proof.
  intros ts tt dm cat p RF PN Hp YZ. unfold count_vars.
  destruct (count_split ts tt dm cat p RF PN Hp YZ (variables p) (fun v H => H) 0%nat) as (k & E & N1 & N2 & L).
  rewrite E. cbn [plus]. exists k, (List.length (variables p) - k)%nat. split; [reflexivity|]. split; [exact N1|].
  split; [exact N2|]. split; [lia|]. intros x [_ HR]. unfold check_count_vars.
  assert (G : forall l, (forall v, In v l -> In v (variables p)) -> forall n,
    foldM (fun n v => if is_order_var v then if approx01 (x (v_id v)) then Ok (S n) else Err AssertionError else Ok n) l n =
    Ok (fold_left (fun n v => if is_order_var v then S n else n) l n)).
  { induction l as [|v l IH]; intros HI n; cbn [foldM fold_left]; [reflexivity|].
    destruct (kind_of ts tt dm cat p RF PN Hp YZ v (HI v (or_introl eq_refl))) as [(K1 & K2 & ->)|(K1 & K2 & ->)].
    - assert (A : approx01 (x (v_id v)) = true).
      { pose proof (occurs_canon ts tt dm cat p RF Hp v (variables_occurs p v (HI v (or_introl eq_refl)))) as C.
        destruct C as [(j & s & _ & ->)|C]; [exfalso; apply K2; reflexivity|].
        assert (B : v_lo v = Some 0 /\ v_up v = Some 1 /\ v_cat v = Integer) by (destruct C as (q & [->| ->]); cbn; auto).
        destruct B as (B1 & B2 & B3). destruct (HR v (HI v (or_introl eq_refl))) as (R1 & R2 & R3).
        specialize (R1 _ B1). specialize (R2 _ B2). destruct (R3 B3) as [z Hz]. rewrite Hz in R1, R2.
        change 0 with (inject_Z 0) in R1. change 1 with (inject_Z 1) in R2. rewrite <- Zle_Qle in R1, R2.
        unfold approx01. rewrite orb_true_iff, !andb_true_iff, !Qle_bool_iff.
        assert (z = 0 \/ z = 1)%Z as [->| ->] by lia; [left|right]; rewrite Hz; split; discriminate. }
      rewrite A. cbn [bind]. apply IH. intros w Hw. apply HI. right. exact Hw.
    - cbn [bind]. apply IH. intros w Hw. apply HI. right. exact Hw. }
  rewrite (G _ (fun v H => H)). cbn [bind]. rewrite E. reflexivity.
Qed.
Print Assumptions C50_counts_partial.

Example C50_case : count_vars small_p = (1%nat, 2%nat, 2%nat) /\ forall j, In j (ts_J small_ts) -> ~ ends_yz j.
Proof.
  split; [vm_compute; reflexivity|]. intros j [<-|[<-|[]]] (u & [E|E]);
    destruct u as [|? [|? ?]]; cbn in E; discriminate.
Qed.

(** check_count_vars: the same numbers if every order variable is 0 or 1 up to the tolerance of pytest.approx (1e-12 around
    0, 1e-6 around 1), otherwise an AssertionError. *)
Definition almost_0_or_1 (q : Q) : Prop :=
  (- (1 # 1000000000000) <= q <= 1 # 1000000000000) \/ (- (1 # 1000000) <= q - 1 <= 1 # 1000000).
Lemma approx01_iff q : approx01 q = true <-> almost_0_or_1 q.
Proof.
  unfold approx01, almost_0_or_1. rewrite orb_true_iff, !andb_true_iff, !Qle_bool_iff. lra.
Qed.

Theorem C50_checked_partial : forall ts tt d_max cat p x,
  reserved_free ts -> plain_names ts -> create_linear_problem ts tt d_max cat = Ok p ->
  (forall j, In j (ts_J ts) -> ~ ends_yz j) ->
  ((forall v, In v (variables p) -> order_variable v -> almost_0_or_1 (x (v_id v))) ->
     check_count_vars p x = Ok (count_vars p)) /\
  ((exists v, In v (variables p) /\ order_variable v /\ ~ almost_0_or_1 (x (v_id v))) ->
     check_count_vars p x = Err AssertionError).
Proof.
  intros ts tt dm cat p x RF PN Hp YZ. unfold check_count_vars, count_vars. split.
  - intros H.
    assert (G : forall l, (forall v, In v l -> In v (variables p)) -> forall n,
      foldM (fun n v => if is_order_var v then if approx01 (x (v_id v)) then Ok (S n) else Err AssertionError else Ok n) l n =
      Ok (fold_left (fun n v => if is_order_var v then S n else n) l n)).
    { induction l as [|v l IH]; intros HI n; cbn [foldM fold_left]; [reflexivity|].
      destruct (kind_of ts tt dm cat p RF PN Hp YZ v (HI v (or_introl eq_refl))) as [(K1 & K2 & ->)|(K1 & K2 & ->)].
      - rewrite (proj2 (approx01_iff _) (H v (HI v (or_introl eq_refl)) K1)). cbn [bind].
        apply IH. intros w Hw. apply HI. right. exact Hw.
      - cbn [bind]. apply IH. intros w Hw. apply HI. right. exact Hw. }
    rewrite (G _ (fun v H => H)). reflexivity.
  - intros (v & V & O & N).
    assert (G : forall l, (forall w, In w l -> In w (variables p)) -> In v l -> forall n,
      foldM (fun n v => if is_order_var v then if approx01 (x (v_id v)) then Ok (S n) else Err AssertionError else Ok n) l n =
      Err AssertionError).
    { induction l as [|w l IH]; intros HI I n; [destruct I|]; cbn [foldM]; destruct I as [->|I].
      - destruct (kind_of ts tt dm cat p RF PN Hp YZ v V) as [(K1 & K2 & ->)|(K1 & K2 & ->)]; [|contradiction].
        destruct (approx01 (x (v_id v))) eqn:A; [|reflexivity]. apply approx01_iff in A. contradiction.
      - destruct (is_order_var w); [destruct (approx01 (x (v_id w)))|]; cbn [bind];
          [| reflexivity |]; apply IH; try exact I; intros u Hu; apply HI; right; exact Hu. }
    rewrite (G _ (fun v H => H) V). reflexivity.
Qed.
Print Assumptions C50_checked_partial.

Example C50_checked_case :
  check_count_vars small_p (fun _ => 1) = Ok (1%nat, 2%nat, 2%nat) /\
  check_count_vars small_p (fun _ => 2) = Err AssertionError.
Proof. split; vm_compute; reflexivity. Qed.

(** A single train called Ty has one delay variable and no order variable; it is counted as an order variable, and
    a delay of 3 minutes makes check_count_vars fail. *)
Definition ty_ts : train_sets := MkTS (Some [(PStr "Ty", B)]) [(PStr "Ty", [A; B])] [PStr "Ty"] [] [] [] [] [] None.
Definition ty_tt : timetable := MkTT [("Ty_A_B", 4)] [] [] [] (Some 1) [] [("Ty_A", 0)] [("Ty_A", 1)].
Definition ty_p : lpproblem := ok_or (create_linear_problem ty_ts ty_tt 3 Integer) empty_problem.

Theorem C50_train_refuted :
  create_linear_problem ty_ts ty_tt 3 Integer = Ok ty_p /\ reserved_free ty_ts /\ plain_names ty_ts /\
  count_vars ty_p = (1%nat, 0%nat, 0%nat) /\ number_of order_variable (variables ty_p) 0%nat /\
  number_of delay_variable (variables ty_p) 1%nat /\
  exists x, feasible ty_p x /\ check_count_vars ty_p x = Err AssertionError.
Proof.
  split; [apply ok_or_ok; vm_compute; reflexivity|]. split; [apply reserved_freeb_ok; vm_compute; reflexivity|].
  split; [apply plain_namesb_ok; vm_compute; reflexivity|]. split; [vm_compute; reflexivity|].
  assert (EV : variables ty_p = [MkVar "Delays" [PStr "Ty"; A] (Some 0) (Some 3) Integer]) by (vm_compute; reflexivity).
  rewrite EV. split; [constructor; [intros [H|H]; discriminate H|constructor]|].
  split; [constructor; [reflexivity|constructor]|].
  exists (fun _ => 3). split; [apply feasibleb_ok; vm_compute; reflexivity|vm_compute; reflexivity].
Qed.
Print Assumptions C50_train_refuted.
