(** * PropsLines: trains on one line, with times that are not whole minutes (C57, C58)

    The tables give times in tenths of minutes and the problem rounds each headway and running time
    to a whole minute, so two trains may share a block for half a minute, and not longer. *)

From Coq Require Import List String Ascii ZArith QArith Qround Qabs Bool Lia Lqa.
From Verif Require Import Base BaseFacts Pulp Helpers LinearSolver Spec DataTables DataSets DataTimes Pipeline
  SpecDurations SpecEnd FileFacts TableFacts SetFacts TimeFacts Builds
  PropsIlp PropsTables PropsSets PropsSwitch PropsTimes PropsHeadway PropsPrep PropsSchedule EndFacts PropsEnd PropsTotal.
From Verif Require Import SpecTables SpecSets.
Import ListNotations.
Open Scope string_scope.
Open Scope list_scope.

Lemma rounding_half h q : in_resolution 1 h q -> h - (1 # 2) <= q /\ q <= h + (1 # 2).
Proof.
  intros [_ H]. destruct (H eq_refl) as (z & -> & A & _). apply Qabs_Qle_condition in A as [A1 A2].
  split; lra.
Qed.

(** C57 for any times: half a minute is the most. *)
Theorem C57_rounded_partial : forall td st net t1 delays d_max cat ts tt p x,
  tidy td st -> 0 <= d_max ->
  tables_to_problem td st net t1 delays d_max cat = Ok (ts, tt, p) -> feasible p x ->
  forall j k tj tk s s2 mid mid',
  j <> k -> runs td j tj -> runs td k tk -> directly tj s s2 mid -> directly tk s s2 mid' ->
  map r_block mid = map r_block mid' -> nonneg_times mid -> nonneg_times mid' ->
  exists a b, Spec.departs ts tt p x (train j) (station s) a /\ Spec.departs ts tt p x (train k) (station s) b /\
    (exists n, apart_on s s2 n /\ (stays_behind n mid (a - (1 # 2)) mid' b \/ stays_behind n mid' (b - (1 # 2)) mid a)) /\
    together_at_most (1 # 2) mid a mid' b.
Proof.
  intros td st net t1 delays d_max cat ts tt p x T D0 H F j k tj tk s s2 mid mid' NE Rj Rk Dj Dk EB W W'.
  destruct (following_sep _ _ _ _ _ _ _ _ _ _ _ T D0 H F _ _ _ _ _ _ _ _ NE Rj Rk Dj Dk EB)
    as (n & q & h & q' & h' & An & Rq & Ls & Rq' & Ls' & a & b & Da & Db & Sep).
  apply rounding_half in Rq, Rq'.
  exists a, b. split; [exact Da|]. split; [exact Db|].
  assert (B : stays_behind n mid (a - (1 # 2)) mid' b \/ stays_behind n mid' (b - (1 # 2)) mid a).
  { destruct Sep as [S1|S1]; [left; eapply least_behind; [exact Ls|lra]|right; eapply least_behind; [exact Ls'|lra]]. }
  split; [exists n; auto|].
  pose proof (apart_pos _ _ _ An) as N1.
  pose proof (directly_nodup _ _ _ _ _ _ (tidy_path _ _ T) Rj Dj) as Nd.
  assert (Sh : forall m a c f e, in_block m a c f e -> in_block m (a - (1 # 2)) c (f - (1 # 2)) (e - (1 # 2))).
  { intros m a0 c f e (u & r & v & E1 & E2 & E3 & E4). exists u, r, v. split; [exact E1|]. split; [exact E2|]. split; lra. }
  intros c f e f' e' u v X1 X2 U1 U2 V1 V2. destruct B as [B|B].
  - pose proof (behind_apart n mid _ mid' b N1 Nd EB W B c _ _ f' e' (Sh _ _ _ _ _ X1) X2). lra.
  - rewrite EB in Nd. pose proof (behind_apart n mid' _ mid a N1 Nd (eq_sym EB) W' B c _ _ f e (Sh _ _ _ _ _ X2) X1). lra.
Qed.
Print Assumptions C57_rounded_partial.

(** ** Opposing trains *)

Lemma pass_rounded td st net t1 delays d_max cat ts tt p t tb s s2 mid q : tidy td st ->
  tables_to_problem td st net t1 delays d_max cat = Ok (ts, tt, p) ->
  runs td t tb -> directly tb s s2 mid -> Spec.running tt (train t) (station s) (station s2) q ->
  in_resolution 1 (SpecDurations.running mid) q.
Proof.
  intros T H R D Q. destruct (parts _ _ _ _ _ _ _ _ _ _ H) as (_ & _ & _ & _ & _ & _ & _ & _ & _ & _ & EP & _).
  destruct (C36_table_partial td None 1 (tidy_visits _ _ T) (tidy_path _ _ T) (named _ _ T) (fun _ x => x)) as (d & Ed & _ & P).
  assert (d = tt_pass tt) by congruence. subst d.
  destruct (P t tb s s2 mid (runs_key _ _ _ R) R D) as (q' & G & Rq). unfold Spec.running in Q. rewrite joined3 in Q. unfold key3 in Q. rewrite G in Q.
  inversion Q; subst. exact Rq.
Qed.

Lemma first_total st s s2 : In s (dkeys st) -> In s2 (dkeys st) -> s <> s2 -> listed_first st None s s2 \/ listed_first st None s2 s.
Proof.
  unfold listed_first. generalize (dkeys st). intros l. induction l as [|x l IH]; intros A B N; [destruct A|].
  destruct (string_dec x s) as [->|N1]; [left; exists [], l; split; [reflexivity|intros []]|].
  destruct (string_dec x s2) as [->|N2]; [right; exists [], l; split; [reflexivity|intros []]|].
  destruct A as [A|A]; [congruence|]. destruct B as [B|B]; [congruence|].
  destruct (IH A B N) as [(u & v & -> & X)|(u & v & -> & X)]; [left|right]; exists (x :: u), v; (split; [reflexivity|]);
    intros [Y|Y]; congruence || contradiction.
Qed.

Lemma listed_in td st s s2 j k tj tk o : tidy td st -> josingle td st None = Ok o ->
  j <> k -> runs td j tj -> runs td k tk -> opposing tj tk s s2 -> In s (dkeys st) -> In s2 (dkeys st) ->
  listed_under td st s s2 tk -> exists l, dget (s, s2) o = Some l /\ In (j, k) l.
Proof.
  intros T Eo NE Rj Rk OP As As2 [NE' LU].
  destruct (C40_exact td st None (tidy_trains _ _ T) (tidy_stations _ _ T) (tidy_marked _ _ T) (tidy_visits _ _ T) (fun _ x => x))
    as (o' & Eo' & X). assert (o' = o) by congruence. subst o'.
  assert (NS : s <> s2) by (destruct OP as (m & _ & L & _); eapply leaves_neq; [exact (tidy_visits _ _ T _ _ Rj)|exact L]).
  destruct (first_total st s s2 As As2 NS) as [FI|FI].
  - apply (X s s2 j k tj tk FI As2 NE Rj Rk OP). exact NE'.
  - destruct LU as [LF|AL].
    + apply (X s s2 j k tj tk LF As2 NE Rj Rk OP). exact NE'.
    + apply (X s2 s k j tk tj FI As (not_eq_sym NE) Rk Rj (opposing_sym _ _ _ _ OP)). split; assumption.
Qed.

Lemma crosses_made td st net t1 delays d_max cat ts tt p j k tj tk s :
  tidy td st -> one_row_each net -> tables_to_problem td st net t1 delays d_max cat = Ok (ts, tt, p) ->
  j <> k -> runs td j tj -> runs td k tk -> switch_conflict net s tj "out" tk "in" ->
  crosses_at ts (station s) (train j) (train k).
Proof.
  intros T OR H NE Rj Rk SC.
  assert (Is : In s (dkeys st)) by (destruct SC as (_ & _ & z & Z & _); apply (passes_station _ _ _ _ _ T Rj), (goes_over_passes _ _ _ _ _ Z)).
  destruct (parts _ _ _ _ _ _ _ _ _ _ H) as (C & _ & _ & _ & _ & _ & _ & _ & (w & Ew & Jw) & _).
  destruct (C42_switches_partial td st net None w (tidy_trains _ _ T) (tidy_stations _ _ T) (tidy_marked _ _ T) (tidy_visits _ _ T) OR Ew) as [K V].
  apply K in Is. apply key_get in Is as (vec & G). destruct (V s vec G) as [_ V'].
  exists (map movement vec).
  assert (I1 : In (station s, map movement vec) (ts_Jswitch ts)).
  { rewrite Jw. unfold emb_switch. apply in_map_iff. exists (s, vec). split; [reflexivity|]. apply dget_in. exact G. }
  destruct (before_total td j k (runs_key _ _ _ Rj) (runs_key _ _ _ Rk) NE) as [B|B].
  - exists (movement [(j, "out"); (k, "in")]). split; [exact I1|]. split; [|left; reflexivity].
    apply in_map. apply V'. exists j, k, tj, tk, "out", "in". auto.
  - exists (movement [(k, "in"); (j, "out")]). split; [exact I1|]. split; [|right; reflexivity].
    apply in_map. apply V'. exists k, j, tk, tj, "in", "out". split; [exact B|].
    split; [exact Rk|]. split; [exact Rj|]. split; [reflexivity|]. apply conflict_sym. exact SC.
Qed.

Lemma stock_sym j k : different_stock j k -> different_stock k j.
Proof. intros [N1 N2]. split; [auto|]. intros y Y. apply (N2 y), same_stock_sym, Y. Qed.

Lemma block_within mid a c f e : nonneg_times mid -> in_block mid a c f e -> a <= f /\ e <= a + SpecDurations.running mid.
Proof.
  intros W (u & r & v & E1 & E2 & E3 & E4). subst mid. rewrite running_app. cbn [SpecDurations.running].
  assert (0 <= SpecDurations.running u) by (apply running_nonneg; intros y I; apply W, in_or_app; left; exact I).
  assert (0 <= SpecDurations.running v) by (apply running_nonneg; intros y I; apply W, in_or_app; right; right; exact I).
  split; lra.
Qed.

(** C58 for any times, and for trains that end at the far station if the line is guarded: one enters the
    line when the other one has left it or has half a minute to go. *)
Theorem C58_rounded_partial : forall td st net t1 delays d_max cat ts tt p x,
  tidy td st -> one_row_each net -> 0 <= d_max ->
  tables_to_problem td st net t1 delays d_max cat = Ok (ts, tt, p) -> feasible p x ->
  forall j k tj tk s s2 mid mid',
  different_stock j k -> runs td j tj -> runs td k tk -> directly tj s s2 mid -> directly tk s2 s mid' ->
  mid <> [] -> map r_block mid' = rev (map r_block mid) -> guarded td st net s s2 tj tk ->
  exists a b, Spec.departs ts tt p x (train j) (station s) a /\ Spec.departs ts tt p x (train k) (station s2) b /\
    (a + SpecDurations.running mid <= b + (1 # 2) \/ b + SpecDurations.running mid' <= a + (1 # 2)) /\
    (nonneg_times mid -> nonneg_times mid' -> together_at_most (1 # 2) mid a mid' b).
Proof.
  intros td st net t1 delays d_max cat ts tt p x T OR D0 H F j k tj tk s s2 mid mid' DS Rj Rk Dj Dk NM EB GU.
  destruct (parts _ _ _ _ _ _ _ _ _ _ H) as (C & _ & _ & _ & _ & (o & Eo & Jo) & _ & _ & _ & _ & _ & _ & _ & Er & _).
  assert (As : In s (dkeys st)) by (apply (passes_station _ _ _ _ _ T Rj); destruct Dj as [G _]; apply (goes_passes _ _ _ _ G)).
  assert (As2 : In s2 (dkeys st)) by (apply (passes_station _ _ _ _ _ T Rk); destruct Dk as [G _]; apply (goes_passes _ _ _ _ G)).
  assert (OP : opposing tj tk s s2).
  { exists (map r_block mid). split; [destruct mid; [congruence|discriminate]|]. split; [apply directly_leaves; exact Dj|].
    rewrite <- EB. apply directly_leaves. exact Dk. }
  pose proof (reserved_ok _ _ _ _ _ _ _ _ _ _ T H) as RF. pose proof (none_ok _ _ _ _ _ _ _ _ _ _ T H) as NF.
  pose proof (stock_sym _ _ DS) as DS'.
  assert (NE : train j <> train k) by (intros E; apply train_inj in E; destruct DS; contradiction).
  assert (NS : s <> s2) by (destruct OP as (m & _ & L & _); eapply leaves_neq; [exact (tidy_visits _ _ T _ _ Rj)|exact L]).
  assert (M : exists a b q q', Spec.departs ts tt p x (train j) (station s) a /\ Spec.departs ts tt p x (train k) (station s2) b /\
    Spec.running tt (train j) (station s) (station s2) q /\ Spec.running tt (train k) (station s2) (station s) q' /\ separated a b q q').
  { destruct GU as [LU|[LU|[S1 S2]]].
    - destruct (listed_in td st s s2 j k tj tk o T Eo (proj1 DS) Rj Rk OP As As2 LU) as (l & G & I).
      assert (I1 : In ((station s, station s2), map two_trains l) (ts_Josingle ts)).
      { rewrite Jo. unfold emb_line. apply in_map_iff. exists ((s, s2), l). split; [reflexivity|]. apply dget_in. exact G. }
      assert (I2 : In (train j, train k) (map two_trains l)) by (apply in_map_iff; exists (j, k); auto).
      destruct (C02_single_line ts tt d_max cat p x RF NF D0 C F _ _ _ _ _ I1 I2 NE (other_stock _ _ _ _ _ _ _ _ _ _ _ _ H DS))
        as (a & b & q & q' & Da & Db & Q & Q' & S1). exists a, b, q, q'. auto.
    - destruct (listed_in td st s2 s k j tk tj o T Eo (proj1 DS') Rk Rj (opposing_sym _ _ _ _ OP) As2 As LU) as (l & G & I).
      assert (I1 : In ((station s2, station s), map two_trains l) (ts_Josingle ts)).
      { rewrite Jo. unfold emb_line. apply in_map_iff. exists ((s2, s), l). split; [reflexivity|]. apply dget_in. exact G. }
      assert (I2 : In (train k, train j) (map two_trains l)) by (apply in_map_iff; exists (k, j); auto).
      destruct (C02_single_line ts tt d_max cat p x RF NF D0 C F _ _ _ _ _ I1 I2 (not_eq_sym NE) (other_stock _ _ _ _ _ _ _ _ _ _ _ _ H DS'))
        as (b & a & q' & q & Db & Da & Q' & Q & S1). exists a, b, q, q'. repeat split; auto. destruct S1; [right|left]; assumption.
    - pose proof (crosses_made _ _ _ _ _ _ _ _ _ _ _ _ _ _ _ T OR H (proj1 DS) Rj Rk S1) as C1.
      pose proof (crosses_made _ _ _ _ _ _ _ _ _ _ _ _ _ _ _ T OR H (proj1 DS') Rk Rj S2) as C2.
      pose proof (proj2 (parts _ _ _ _ _ _ _ _ _ _ H)) as MD.
      pose proof (before_made _ _ _ _ _ _ _ T MD _ _ _ _ _ Rj (directly_leaves _ _ _ _ Dj)) as B1.
      pose proof (before_made _ _ _ _ _ _ _ T MD _ _ _ _ _ Rk (directly_leaves _ _ _ _ Dk)) as B2.
      destruct (C70_switches_at_both_ends ts tt d_max cat p x RF NF D0 C F _ _ _ _ C1 C2 B1 B2 NE)
        as (a & b & q & q' & r & Da & Db & Q & Q' & R & S0).
      { intros X. apply station_inj in X. contradiction. }
      { exact (other_stock _ _ _ _ _ _ _ _ _ _ _ _ H DS). }
      unfold reservation in R. rewrite Er in R. inversion R; subst r.
      exists a, b, q, q'. repeat split; auto. unfold separated in *. destruct S0; [left|right]; lra. }
  destruct M as (a & b & q & q' & Da & Db & Q & Q' & Sep). exists a, b. split; [exact Da|]. split; [exact Db|].
  pose proof (rounding_half _ _ (pass_rounded _ _ _ _ _ _ _ _ _ _ _ _ _ _ _ _ T H Rj Dj Q)) as R1.
  pose proof (rounding_half _ _ (pass_rounded _ _ _ _ _ _ _ _ _ _ _ _ _ _ _ _ T H Rk Dk Q')) as R2.
  assert (Res : a + SpecDurations.running mid <= b + (1 # 2) \/ b + SpecDurations.running mid' <= a + (1 # 2)).
  { unfold separated in Sep. destruct Sep; [left|right]; lra. }
  split; [exact Res|]. intros W W' c f e f' e' u v X1 X2 U1 U2 V1 V2.
  apply (block_within _ _ _ _ _ W) in X1 as [X1 Y1]. apply (block_within _ _ _ _ _ W') in X2 as [X2 Y2].
  destruct Res; lra.
Qed.
Print Assumptions C58_rounded_partial.
