(** * PropsWisla: what the problem of wisla_problems.py excludes *)

From Coq Require Import List String ZArith QArith Bool Lqa.
From Verif Require Import Base Pulp Helpers LinearSolver Spec SpecQubo BaseFacts SpecFacts Check PropsIlp
  Optimum WislaData.
Import ListNotations.
Open Scope string_scope.
Open Scope list_scope.
Open Scope Q_scope.

(** Between neighbouring stations there is one track.  [j] runs over it from [s] to [sp]. *)
Definition wisla_runs (j s sp : pv) : Prop := comes_before wisla_ts j s sp.

(** ** The runs *)
Definition wisla_all : list (pv * (pv * pv)) :=
  flat_map (fun jp => map (fun e => (fst jp, e)) (combine (snd jp) (tl (snd jp)))) (ts_Paths wisla_ts).

Lemma split_pair (l1 : list pv) : forall l2 s sp path,
  path = l1 ++ s :: sp :: l2 -> In (s, sp) (combine path (tl path)).
Proof.
  induction l1 as [|a l1 IH]; intros l2 s sp path ->.
  - left. reflexivity.
  - destruct l1 as [|b l1].
    + right. left. reflexivity.
    + right. exact (IH l2 s sp _ eq_refl).
Qed.

Lemma runs_all j s sp : wisla_runs j s sp -> In (j, (s, sp)) wisla_all.
Proof.
  intros (path & l1 & l2 & G & E & _). apply dget_in in G.
  unfold wisla_all. apply in_flat_map. exists (j, path). split; [exact G|].
  apply in_map_iff. exists (s, sp). split; [reflexivity|]. exact (split_pair l1 l2 s sp path E).
Qed.

(** ** What the input sets list *)
Fixpoint listedb (l : list pv) (j k : pv) : bool :=
  match l with
  | [] => false
  | a :: r => (eqb a j && existsb (eqb k) r) || listedb r j k
  end.
Lemma listedb_ok l j k : listedb l j k = true -> listed l j k.
Proof.
  induction l as [|a r IH]; [discriminate|]. cbn [listedb]. rewrite orb_true_iff, andb_true_iff.
  intros [[A B]|H].
  - apply eqb_eq in A. apply existsb_exists in B. destruct B as (b & B & C). apply eqb_eq in C.
    apply in_split in B. destruct B as (m1 & m2 & ->). subst. exists [], m1, m2. reflexivity.
  - destruct (IH H) as (m1 & m2 & m3 & ->). exists (a :: m1), m2, m3. reflexivity.
Qed.

Definition groupedb (s sp j k : pv) : bool :=
  existsb (fun e => eqb (fst e) s && existsb (fun f => eqb (fst f) sp &&
    existsb (fun js => listedb js j k || listedb js k j) (snd f)) (snd e)) (ts_Jd wisla_ts).
Definition is_span (d : dict string Q) (l : list pv) (q : Q) : bool :=
  match dget (joined l) d with Some r => Qeq_bool r q | None => false end.

Definition follow_ok (a b : pv * (pv * pv)) : bool :=
  let '(j, (s, sp)) := a in
  if eqb (snd a) (snd b) && negb (eqb j (fst b)) && negb (eqb (s, sp) (PInt 10, PInt 5)) then
    groupedb s sp j (fst b) && is_span (tt_headway wisla_tt) [j; fst b; s; sp] 2
    && is_span (tt_headway wisla_tt) [fst b; j; s; sp] 2
  else true.
Lemma all_follow : forallb (fun a => forallb (follow_ok a) wisla_all) wisla_all = true.
Proof. vm_compute. reflexivity. Qed.

Definition single_listed (s sp j k : pv) : bool :=
  existsb (fun e => eqb (fst e) (s, sp) && existsb (eqb (j, k)) (snd e)) (ts_Josingle wisla_ts).
Definition one_stock (j k : pv) : bool := eqb (j, k) (PStr "Ic1", PStr "Ic2") || eqb (k, j) (PStr "Ic1", PStr "Ic2").
Definition oppose_ok (a b : pv * (pv * pv)) : bool :=
  let '(j, (s, sp)) := a in
  if eqb (snd b) (sp, s) then
    negb (eqb j (fst b)) &&
    (one_stock j (fst b) ||
     (not_the_same_rolling_stock j (fst b) wisla_ts && not_the_same_rolling_stock (fst b) j wisla_ts &&
      (single_listed s sp j (fst b) || single_listed sp s (fst b) j)))
  else true.
Lemma all_oppose : forallb (fun a => forallb (oppose_ok a) wisla_all) wisla_all = true.
Proof. vm_compute. reflexivity. Qed.

Lemma pairs_of (f : pv * (pv * pv) -> pv * (pv * pv) -> bool) :
  forallb (fun a => forallb (f a) wisla_all) wisla_all = true ->
  forall a b, In a wisla_all -> In b wisla_all -> f a b = true.
Proof.
  intros H a b A B. rewrite forallb_forall in H. specialize (H a A). rewrite forallb_forall in H. exact (H b B).
Qed.

Lemma wisla_reserved : reserved_free wisla_ts.
Proof. apply reserved_freeb_ok. vm_compute. reflexivity. Qed.
Lemma wisla_none : none_free wisla_tt.
Proof. apply none_freeb_ok. vm_compute. reflexivity. Qed.

Section Solution.
  Variables (p : lpproblem) (x : assignment).
  Hypothesis built : create_linear_problem wisla_ts wisla_tt wisla_d_max Integer = Ok p.
  Hypothesis feas : feasible p x.

  Let dep := departs wisla_ts wisla_tt p x.

  Lemma span_two l q : is_span (tt_headway wisla_tt) l 2 = true ->
    dget (joined l) (tt_headway wisla_tt) = Some q -> q == 2.
  Proof. unfold is_span. intros A B. rewrite B in A. apply Qeq_bool_iff in A. exact A. Qed.

  Lemma followers_apart j k s sp : j <> k -> (s, sp) <> (PInt 10, PInt 5) ->
    wisla_runs j s sp -> wisla_runs k s sp ->
    exists t t', dep j s t /\ dep k s t' /\ (t + 2 <= t' \/ t' + 2 <= t).
  Proof.
    intros N N5 A B. pose proof (pairs_of _ all_follow _ _ (runs_all _ _ _ A) (runs_all _ _ _ B)) as H.
    cbn [follow_ok fst snd] in H. rewrite eqb_refl in H.
    replace (eqb j k) with false in H by (symmetry; apply eqb_false; exact N).
    replace (eqb (s, sp) (PInt 10, PInt 5)) with false in H by (symmetry; apply eqb_false; exact N5).
    cbn [andb negb] in H. rewrite !andb_true_iff in H. destruct H as [[G H1] H2].
    unfold groupedb in G. apply existsb_exists in G. destruct G as ((s0 & inner) & I1 & G).
    cbn [fst snd] in G. apply andb_true_iff in G. destruct G as [E1 G]. apply eqb_eq in E1. subst s0.
    apply existsb_exists in G. destruct G as ((sp0 & groups) & I2 & G).
    cbn [fst snd] in G. apply andb_true_iff in G. destruct G as [E2 G]. apply eqb_eq in E2. subst sp0.
    apply existsb_exists in G. destruct G as (js & I3 & G). apply orb_true_iff in G.
    pose proof (C01_headway wisla_ts wisla_tt wisla_d_max Integer p x wisla_reserved wisla_none
                  ltac:(discriminate) built feas s inner sp groups js) as C.
    destruct G as [G|G]; apply listedb_ok in G.
    - destruct (C j k I1 I2 I3 G N) as (t & t' & h & h' & D & D' & W & W' & S).
      apply (span_two _ _ H1) in W. apply (span_two _ _ H2) in W'.
      exists t, t'. split; [exact D|]. split; [exact D'|]. destruct S; [left|right]; lra.
    - destruct (C k j I1 I2 I3 G (not_eq_sym N)) as (t & t' & h & h' & D & D' & W & W' & S).
      apply (span_two _ _ H2) in W. apply (span_two _ _ H1) in W'.
      exists t', t. split; [exact D'|]. split; [exact D|]. destruct S; [right|left]; lra.
  Qed.

  Lemma dep_fun j s t t' : dep j s t -> dep j s t' -> t == t'.
  Proof. intros (e & E & ->) (e' & E' & ->). rewrite (earliest_fun _ _ _ _ _ _ E E'). reflexivity. Qed.

  Definition running_is j s sp q : bool :=
    match dget (joined [j; s; sp]) (tt_pass wisla_tt) with Some r => Qeq_bool r q | None => false end.
  Lemma running_val j s sp q r : running_is j s sp q = true -> running wisla_tt j s sp r -> r == q.
  Proof. unfold running_is, running. intros A B. rewrite B in A. apply Qeq_bool_iff in A. exact A. Qed.

  Definition decidedb (j s : pv) : bool :=
    existsb (eqb j) (ts_J wisla_ts) &&
    (match dget j (ts_Paths wisla_ts) with Some path => existsb (eqb s) path | None => false end) &&
    (match ts_skip wisla_ts with
     | Some sk => match dget j sk with Some s' => negb (eqb s' s) | None => true end | None => true end) &&
    (match dget s (ts_Jround wisla_ts) with Some l => negb (existsb (fun e => eqb (fst e) j) l) | None => true end).
  Lemma decidedb_ok j s : decidedb j s = true -> decided wisla_ts j s.
  Proof.
    unfold decidedb, decided. rewrite !andb_true_iff. intros [[[A B] C] D].
    apply existsb_exists in A. destruct A as (j0 & A & E). apply eqb_eq in E. subst j0.
    split; [exact A|]. split.
    - destruct (dget j (ts_Paths wisla_ts)) as [path|]; [|discriminate]. exists path. split; [reflexivity|].
      apply existsb_exists in B. destruct B as (s0 & B & E). apply eqb_eq in E. subst s0. exact B.
    - split.
      + intros (sk & E1 & E2). rewrite E1, E2 in C. rewrite eqb_refl in C. discriminate.
      + intros (jn & l1 & l2 & E1 & _). rewrite E1 in D. rewrite existsb_app in D. cbn [existsb fst] in D.
        rewrite eqb_refl, orb_true_r in D. discriminate.
  Qed.

  (** A train leaves a station only after the running time from the station before. *)
  Lemma onwards j s sp q t t' : wisla_runs j s sp -> decidedb j sp = true -> running_is j s sp q = true ->
    is_span (tt_stop wisla_tt) [j; sp] 1 = true -> dep j s t -> dep j sp t' -> t + q + 1 <= t'.
  Proof.
    intros R D Q S A B. apply decidedb_ok in D.
    destruct (C03_minimal_stay wisla_ts wisla_tt wisla_d_max Integer p x wisla_reserved wisla_none built feas
                j s sp (proj1 D) R D) as (u & u' & r & st & A' & B' & W & M & L).
    apply (running_val _ _ _ _ _ Q) in W. unfold is_span in S. unfold min_stop in M. rewrite M in S.
    apply Qeq_bool_iff in S. pose proof (dep_fun _ _ _ _ A A'). pose proof (dep_fun _ _ _ _ B B'). lra.
  Qed.

  Lemma turned : exists a t, arrives wisla_ts wisla_tt p x (PStr "Ic1") (PInt 10) a /\
    dep (PStr "Ic2") (PInt 10) t /\ a + 20 <= t.
  Proof.
    destruct (C06_circulation wisla_ts wisla_tt wisla_d_max Integer p x wisla_reserved wisla_none
                ltac:(discriminate) built feas (PInt 10) [(PStr "Ic1", PStr "Ic2")] (PStr "Ic1") (PStr "Ic2"))
      as (a & t & pr & A & D & P & L); [left; reflexivity|left; reflexivity|].
    vm_compute in P. exists a, t. split; [exact A|]. split; [exact D|]. injection P as <-. exact L.
  Qed.

  Lemma at_hand j s sp l1 l2 path : dget j (ts_Paths wisla_ts) = Some path -> path = l1 ++ s :: sp :: l2 ->
    existsb (eqb sp) (l1 ++ [s]) = false -> wisla_runs j s sp.
  Proof.
    intros A B C. exists path, l1, l2. split; [exact A|]. split; [exact B|]. intros H.
    assert (T : existsb (eqb sp) (l1 ++ [s]) = true).
    { apply existsb_exists. exists sp. split; [exact H|apply eqb_refl]. }
    congruence.
  Qed.

  (** The departures of Ic1 and Ic2 *)
  Lemma one_by_one : exists t1 t3 t5 u10 u5 u3,
    dep (PStr "Ic1") (PInt 1) t1 /\ dep (PStr "Ic1") (PInt 3) t3 /\ dep (PStr "Ic1") (PInt 5) t5 /\
    dep (PStr "Ic2") (PInt 10) u10 /\ dep (PStr "Ic2") (PInt 5) u5 /\ dep (PStr "Ic2") (PInt 3) u3 /\
    t1 + 4 <= t3 /\ t3 + 4 <= t5 /\ t5 + 5 <= u10 /\ u10 <= u5 /\ u5 <= u3.
  Proof.
    assert (R13 : wisla_runs (PStr "Ic1") (PInt 1) (PInt 3))
      by (eapply (at_hand _ _ _ []); reflexivity).
    assert (R35 : wisla_runs (PStr "Ic1") (PInt 3) (PInt 5))
      by (eapply (at_hand _ _ _ [PInt 1]); reflexivity).
    assert (R510 : wisla_runs (PStr "Ic1") (PInt 5) (PInt 10))
      by (eapply (at_hand _ _ _ [PInt 1; PInt 3]); reflexivity).
    assert (R105 : wisla_runs (PStr "Ic2") (PInt 10) (PInt 5))
      by (eapply (at_hand _ _ _ []); reflexivity).
    assert (R53 : wisla_runs (PStr "Ic2") (PInt 5) (PInt 3))
      by (eapply (at_hand _ _ _ [PInt 10]); reflexivity).
    assert (E : forall j s sp, wisla_runs j s sp -> decidedb j sp = true ->
              exists t t', dep j s t /\ dep j sp t').
    { intros j s sp R D. apply decidedb_ok in D.
      destruct (C03_minimal_stay wisla_ts wisla_tt wisla_d_max Integer p x wisla_reserved wisla_none built feas
                j s sp (proj1 D) R D) as (u & u' & r & st & A' & B' & _). exists u, u'. split; assumption. }
    destruct (E _ _ _ R13 eq_refl) as (t1 & t3 & A1 & A3).
    destruct (E _ _ _ R35 eq_refl) as (t3' & t5 & _ & A5).
    destruct (E _ _ _ R105 eq_refl) as (u10 & u5 & B10 & B5).
    destruct (E _ _ _ R53 eq_refl) as (u5' & u3 & _ & B3).
    destruct turned as (a & u & (s0 & t & r & Cb & D & W & Ea) & B & L).
    assert (s0 = PInt 5) by (eapply comes_before_fun; [exact Cb|exact R510]). subst s0.
    pose proof (running_val (PStr "Ic1") (PInt 5) (PInt 10) 5 _ eq_refl W). pose proof (dep_fun _ _ _ _ A5 D).
    pose proof (dep_fun _ _ _ _ B10 B).
    pose proof (onwards (PStr "Ic1") (PInt 1) (PInt 3) 4 _ _ R13 eq_refl eq_refl eq_refl A1 A3).
    pose proof (onwards (PStr "Ic1") (PInt 3) (PInt 5) 4 _ _ R35 eq_refl eq_refl eq_refl A3 A5).
    pose proof (onwards (PStr "Ic2") (PInt 10) (PInt 5) 5 _ _ R105 eq_refl eq_refl eq_refl B10 B5).
    pose proof (onwards (PStr "Ic2") (PInt 5) (PInt 3) 4 _ _ R53 eq_refl eq_refl eq_refl B5 B3).
    exists t1, t3, t5, u10, u5, u3. repeat (split; [first [assumption|lra]|]). lra.
  Qed.

  Lemma stock_apart s sp : wisla_runs (PStr "Ic1") s sp -> wisla_runs (PStr "Ic2") sp s ->
    exists t t' r r', dep (PStr "Ic1") s t /\ dep (PStr "Ic2") sp t' /\
      running wisla_tt (PStr "Ic1") s sp r /\ running wisla_tt (PStr "Ic2") sp s r' /\ separated t t' r r'.
  Proof.
    intros A _. destruct one_by_one as
      (t1 & t3 & t5 & u10 & u5 & u3 & A1 & A3 & A5 & B10 & B5 & B3 & L1 & L2 & L3 & L4 & L5).
    apply runs_all in A.
    assert (C : (s, sp) = (PInt 1, PInt 3) \/ (s, sp) = (PInt 3, PInt 5) \/ (s, sp) = (PInt 5, PInt 10)).
    { vm_compute in A. repeat (destruct A as [A|A]; [try discriminate A; injection A as <- <-;
        first [left; reflexivity|right; left; reflexivity|right; right; reflexivity]|]). destruct A. }
    destruct C as [C|[C|C]]; injection C as -> ->.
    - exists t1, u3, 4, 4. repeat (split; [first [assumption|reflexivity]|]). left. lra.
    - exists t3, u5, 4, 4. repeat (split; [first [assumption|reflexivity]|]). left. lra.
    - exists t5, u10, 5, 5. repeat (split; [first [assumption|reflexivity]|]). left. lra.
  Qed.

  Lemma opposing_apart j k s sp : wisla_runs j s sp -> wisla_runs k sp s ->
    exists t t' r r', dep j s t /\ dep k sp t' /\
      running wisla_tt j s sp r /\ running wisla_tt k sp s r' /\ separated t t' r r'.
  Proof.
    intros A B. pose proof (pairs_of _ all_oppose _ _ (runs_all _ _ _ A) (runs_all _ _ _ B)) as H.
    cbn [oppose_ok fst snd] in H. rewrite eqb_refl in H. apply andb_true_iff in H. destruct H as [N H].
    apply negb_true_iff, eqb_false in N. apply orb_true_iff in H. destruct H as [H|H].
    - unfold one_stock in H. apply orb_true_iff in H. destruct H as [H|H]; apply eqb_eq in H; injection H as -> ->.
      + exact (stock_apart s sp A B).
      + destruct (stock_apart sp s B A) as (t & t' & r & r' & D & D' & W & W' & S).
        exists t', t, r', r. repeat (split; [assumption|]). destruct S; [right|left]; assumption.
    - rewrite !andb_true_iff in H. destruct H as [[R1 R2] H].
      apply not_same_rolling_spec in R1. apply not_same_rolling_spec in R2.
      unfold single_listed in H. apply orb_true_iff in H.
      pose proof (C02_single_line wisla_ts wisla_tt wisla_d_max Integer p x wisla_reserved wisla_none
                    ltac:(discriminate) built feas) as C.
      destruct H as [H|H]; apply existsb_exists in H; destruct H as (((s1 & sp1) & l) & I1 & H); cbn [fst snd] in H;
        apply andb_true_iff in H; destruct H as [E H]; apply eqb_eq in E; injection E as -> ->;
        apply existsb_exists in H; destruct H as (jk & I2 & H); apply eqb_eq in H; subst jk.
      + exact (C s sp l j k I1 I2 N R1).
      + destruct (C sp s l k j I1 I2 (not_eq_sym N) R2) as (t & t' & r & r' & D & D' & W & W' & S).
        exists t', t, r', r. repeat (split; [assumption|]). destruct S; [right|left]; assumption.
  Qed.
End Solution.

(** C73: in every solution of the problem, trains that follow each other over a section leave its first station
    at least 2 minutes apart, trains that run over a section in opposite directions are not on it at the same time,
    and Ic2 leaves station 10 at least 20 minutes after Ic1 has arrived there.  Full claim: for all sections.
    Missing is the section from 10 to 5, for which the input has no rule (see C73_wisla_refuted). *)
Theorem C73_wisla_partial : forall p x,
  create_linear_problem wisla_ts wisla_tt wisla_d_max Integer = Ok p -> feasible p x ->
  (forall j k s sp, j <> k -> wisla_runs j s sp -> wisla_runs k s sp -> (s, sp) <> (PInt 10, PInt 5) ->
     exists t t', departs wisla_ts wisla_tt p x j s t /\ departs wisla_ts wisla_tt p x k s t' /\
       (t + 2 <= t' \/ t' + 2 <= t)) /\
  (forall j k s sp, wisla_runs j s sp -> wisla_runs k sp s ->
     exists t t' r r', departs wisla_ts wisla_tt p x j s t /\ departs wisla_ts wisla_tt p x k sp t' /\
       running wisla_tt j s sp r /\ running wisla_tt k sp s r' /\ separated t t' r r') /\
  (exists a t, arrives wisla_ts wisla_tt p x (PStr "Ic1") (PInt 10) a /\
     departs wisla_ts wisla_tt p x (PStr "Ic2") (PInt 10) t /\ a + 20 <= t).
Proof.
  intros p x B F. split; [|split].
  - intros j k s sp N R R' N5. exact (followers_apart p x B F j k s sp N N5 R R').
  - intros j k s sp. exact (opposing_apart p x B F j k s sp).
  - exact (turned p x B F).
Qed.
Print Assumptions C73_wisla_partial.

(** The problem exists, and has solutions. *)
Definition wisla_r : res lpproblem := create_linear_problem wisla_ts wisla_tt wisla_d_max Integer.
Definition wisla_p : lpproblem := Eval vm_compute in ok_or wisla_r empty_problem.
Lemma wisla_built : create_linear_problem wisla_ts wisla_tt wisla_d_max Integer = Ok wisla_p.
Proof. vm_compute. reflexivity. Qed.
Lemma wisla_best_feasible : feasible wisla_p wisla_best.
Proof. apply feasibleb_ok. vm_compute. reflexivity. Qed.
Lemma wisla_together_feasible : feasible wisla_p wisla_together.
Proof. apply feasibleb_ok. vm_compute. reflexivity. Qed.

(** In the case of the best solution: Ic1 and Ks2 on the section between 5 and 10, Ic1 after Ks2. *)
Example C73_case : exists t t' r r',
  departs wisla_ts wisla_tt wisla_p wisla_best (PStr "Ic1") (PInt 5) t /\
  departs wisla_ts wisla_tt wisla_p wisla_best (PStr "Ks2") (PInt 10) t' /\
  running wisla_tt (PStr "Ic1") (PInt 5) (PInt 10) r /\ running wisla_tt (PStr "Ks2") (PInt 10) (PInt 5) r' /\
  separated t t' r r'.
Proof.
  apply (C73_wisla_partial wisla_p wisla_best wisla_built wisla_best_feasible).
  - eapply (at_hand _ _ _ [PInt 1; PInt 3]); reflexivity.
  - eapply (at_hand _ _ _ []); reflexivity.
Qed.

(** The least value of the objective is 0.54 (the optimum that the repository records in
    solutions_quantum/wisla/data4diagrams/PULP_CBC_CMD_wisla_case1.pkl: Ic1 waits 6 minutes at 5). *)
Example C73_optimum : optimal wisla_p wisla_best /\ obj_value wisla_p wisla_best == 54 # 100.
Proof.
  split.
  - apply (certified_optimal wisla_p wisla_certificate wisla_best wisla_best_feasible). vm_compute. reflexivity.
  - vm_compute. reflexivity.
Qed.

(** From 10 to 5 two trains may leave at the same time. *)
Theorem C73_wisla_refuted : exists p x j k t,
  create_linear_problem wisla_ts wisla_tt wisla_d_max Integer = Ok p /\ feasible p x /\ j <> k /\
  wisla_runs j (PInt 10) (PInt 5) /\ wisla_runs k (PInt 10) (PInt 5) /\
  departs wisla_ts wisla_tt p x j (PInt 10) t /\ departs wisla_ts wisla_tt p x k (PInt 10) t.
Proof.
  exists wisla_p, wisla_together, (PStr "Ic2"), (PStr "Ks4"), 100.
  split; [exact wisla_built|]. split; [exact wisla_together_feasible|]. split; [discriminate|].
  split; [eapply (at_hand _ _ _ []); reflexivity|]. split; [eapply (at_hand _ _ _ []); reflexivity|]. split.
  - exists 95. split.
    + apply (earliest_init _ _ _ _ 95); [reflexivity|]. left. exists 95. split; [reflexivity|]. left. split; lra.
    + vm_compute. reflexivity.
  - exists 100. split.
    + apply (earliest_init _ _ _ _ 100); [reflexivity|]. left. exists 100. split; [reflexivity|]. left. split; lra.
    + vm_compute. reflexivity.
Qed.
Print Assumptions C73_wisla_refuted.

(** With the brace put right the problem is not built: the headway of Ic2 before Ks2 from 10 to 5 is filed under
    "Ic2_Ks2_5_10". *)
Definition wisla_mended : train_sets :=
  MkTS (ts_skip wisla_ts) (ts_Paths wisla_ts) (ts_J wisla_ts)
    (ts_Jd wisla_ts ++ [(PInt 10, [(PInt 5, [[PStr "Ks2"; PStr "Ks4"; PStr "Ic2"]])])])
    (ts_Josingle wisla_ts) (ts_Jround wisla_ts) (ts_Jtrack wisla_ts) (ts_Jswitch wisla_ts) (ts_add_switches wisla_ts).
Example C73_mended : create_linear_problem wisla_mended wisla_tt wisla_d_max Integer = Err KeyError.
Proof. vm_compute. reflexivity. Qed.
