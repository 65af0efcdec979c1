(** * PropsEnd: from the tables to departure times without conflict (C57-C61)

    A problem is built from the tables as in solve_real_problem.py; [x] is any feasible solution. *)

From Coq Require Import List String Ascii ZArith QArith Qround Qabs Bool Lia Lqa.
From Verif Require Import Base BaseFacts Pulp Helpers LinearSolver Spec DataTables DataSets DataTimes Pipeline
  SpecDurations SpecEnd FileFacts TableFacts SetFacts TimeFacts Builds
  PropsIlp PropsTables PropsSets PropsSwitch PropsTimes PropsHeadway PropsPrep PropsSchedule EndFacts.
From Verif Require Import SpecTables SpecSets.
Import ListNotations.
Open Scope string_scope.
Open Scope list_scope.

(** ** Whole minutes *)

Definition whole (q : Q) : Prop := exists z : Z, q == inject_Z z.

Lemma whole_plus a b : whole a -> whole b -> whole (a + b).
Proof. intros [x X] [y Y]. exists (x + y)%Z. rewrite inject_Z_plus, X, Y. reflexivity. Qed.
Lemma whole_minus a b : whole a -> whole b -> whole (a - b).
Proof.
  intros [x X] [y Y]. exists (x - y)%Z. unfold Zminus. rewrite inject_Z_plus, inject_Z_opp, X, Y. reflexivity.
Qed.
Lemma whole_0 : whole 0. Proof. exists 0%Z. reflexivity. Qed.

Lemma whole_running l : whole_minutes l -> whole (SpecDurations.running l).
Proof.
  induction l as [|r l IH]; intros W; [apply whole_0|]. cbn [SpecDurations.running]. apply whole_plus.
  - destruct (W r (or_introl eq_refl)) as [n N]. exists (Z.of_nat n). exact N.
  - apply IH. intros r' I. apply W. right. exact I.
Qed.

Lemma after_running l x : after x (map time_of l) == SpecDurations.running (firstn x l).
Proof.
  unfold after. rewrite firstn_map. generalize (firstn x l). intros m. induction m as [|r m IH]; [reflexivity|].
  cbn [map fold_right SpecDurations.running]. rewrite IH. reflexivity.
Qed.

Lemma firstn_incl {A} (l : list A) x r : In r (firstn x l) -> In r l.
Proof. revert l; induction x as [|x IH]; intros [|a l] I; cbn in *; auto; try tauto. destruct I; auto. Qed.

Lemma whole_after l x : whole_minutes l -> whole (after x (map time_of l)).
Proof.
  intros W. destruct (whole_running (firstn x l)) as [z Z]; [intros r I; apply W; eapply firstn_incl; eauto|].
  exists z. rewrite after_running. exact Z.
Qed.

Lemma rounding_whole h q : whole h -> in_resolution 1 h q -> q == h.
Proof.
  intros [z Z] [_ H]. destruct (H eq_refl) as (y & -> & A & _). rewrite Z in *.
  unfold Qminus in A. rewrite <- inject_Z_opp, <- inject_Z_plus in A. apply Qabs_Qle_condition in A as [A1 A2].
  assert (y = z); [|subst; reflexivity].
  assert (-1 < z + - y < 1)%Z.
  { split; apply Z.lt_nge; intros L; rewrite Zle_Qle in L; cbn in L; change (inject_Z 1) with 1 in L; change (inject_Z (-1)) with (-1) in L; lra. }
  lia.
Qed.

(** The least safe headway of whole-minute times is whole. *)
Lemma least_whole k mid mid' h : whole_minutes mid -> whole_minutes mid' ->
  least_safe k (map time_of mid) (map time_of mid') h -> whole h.
Proof.
  intros W W' [E L]. destruct mid as [|r mid].
  - exists 0%Z. apply E. reflexivity.
  - destruct (L ltac:(discriminate)) as [K M]. exists (Qfloor h). apply Qle_antisym.
    + apply M. intros x X. specialize (K x X).
      destruct (whole_minus _ _ (whole_after (r :: mid) (x + k) W) (whole_after mid' x W')) as [z Z].
      set (A := after (x + k) (map time_of (r :: mid))) in *. set (B := after x (map time_of mid')) in *.
      assert (inject_Z z <= h) by lra. apply Qfloor_resp_le in H. rewrite Qfloor_Z in H. rewrite Zle_Qle in H. lra.
    + apply Qfloor_le.
Qed.

(** ** Following trains *)

Lemma firstn_app_len {A} (u v : list A) : firstn (List.length u) (u ++ v) = u.
Proof. rewrite firstn_app, Nat.sub_diag, firstn_all. cbn. apply app_nil_r. Qed.

Lemma whole_nonneg l : whole_minutes l -> nonneg_times l.
Proof. intros W r I. destruct (W r I) as [n N]. rewrite N. change 0 with (inject_Z 0). rewrite <- Zle_Qle. lia. Qed.

Lemma running_nonneg l : nonneg_times l -> 0 <= SpecDurations.running l.
Proof.
  induction l as [|r l IH]; intros W; cbn [SpecDurations.running]; [lra|].
  pose proof (W r (or_introl eq_refl)). specialize (IH (fun r' I => W r' (or_intror I))). lra.
Qed.

Lemma after_mono l x k : nonneg_times l -> after x (map time_of l) <= after (x + k) (map time_of l).
Proof.
  intros W. rewrite !after_running. revert x W. induction l as [|r l IH]; intros x W.
  - rewrite !firstn_nil. lra.
  - assert (W' : nonneg_times l) by (intros r' I; apply W; right; exact I). destruct x as [|x].
    + cbn [firstn SpecDurations.running]. apply running_nonneg. intros r' I. apply W. eapply firstn_incl. exact I.
    + cbn [Nat.add firstn SpecDurations.running]. specialize (IH x W'). lra.
Qed.

Lemma nth_split_eq {A} (u v u' v' : list A) b : NoDup (u ++ b :: v) -> u ++ b :: v = u' ++ b :: v' -> u = u'.
Proof.
  revert u'; induction u as [|y u IH]; intros [|y' u'] N E; cbn in *; auto.
  - inversion E; subst. inversion N; subst. exfalso. apply H1. apply in_or_app. right. left. reflexivity.
  - inversion E; subst. inversion N; subst. exfalso. apply H1. apply in_or_app. right. left. reflexivity.
  - inversion E; subst. inversion N; subst. f_equal. eapply IH; eauto.
Qed.

Lemma behind_apart n mid a mid' b : (1 <= n)%nat -> NoDup (map r_block mid) -> map r_block mid = map r_block mid' ->
  nonneg_times mid -> stays_behind n mid a mid' b ->
  forall c f e f' e', in_block mid a c f e -> in_block mid' b c f' e' -> e <= f'.
Proof.
  intros Hn N E W SB c f e f' e' (u & r & v & E1 & B1 & F1 & X1) (u' & r' & v' & E2 & B2 & F2 & X2).
  assert (U : map r_block u = map r_block u').
  { rewrite E1 in E, N. rewrite E2 in E. rewrite !map_app in E. rewrite map_app in N. cbn [map] in *. rewrite B1 in *. rewrite B2 in E.
    eapply nth_split_eq; eauto. }
  assert (L : List.length u = List.length u') by (rewrite <- (map_length r_block u), U, map_length; reflexivity).
  specialize (SB (List.length u)).
  assert (A1 : after (List.length u + n) (map time_of mid) >= SpecDurations.running u + time_of r).
  { pose proof (after_mono mid (List.length u + 1) (n - 1) W) as M. replace (List.length u + 1 + (n - 1))%nat with (List.length u + n)%nat in M by lia.
    rewrite (after_running mid (List.length u + 1)) in M. rewrite E1 in M at 1.
    replace (u ++ r :: v) with ((u ++ [r]) ++ v) in M by (rewrite <- app_assoc; reflexivity).
    replace (List.length u + 1)%nat with (List.length (u ++ [r])) in M by (rewrite app_length; cbn; lia).
    rewrite firstn_app_len, running_app in M. cbn [SpecDurations.running] in M. lra. }
  assert (A2 : after (List.length u) (map time_of mid') == SpecDurations.running u')
    by (rewrite after_running, E2, L, firstn_app_len; reflexivity).
  assert (X : (List.length u < List.length mid)%nat) by (rewrite E1, app_length; cbn; lia).
  specialize (SB X). lra.
Qed.

Lemma apart_pos s s2 n : apart_on s s2 n -> (1 <= n)%nat.
Proof.
  intros [A B]. destruct (in_dec (fun x y => eq_dec x y) (s, s2) one_block_stretches) as [I|I]; [rewrite (A (or_introl I)); lia|].
  destruct (in_dec (fun x y => eq_dec x y) (s2, s) one_block_stretches) as [I'|I']; [rewrite (A (or_intror I')); lia|].
  rewrite B; [lia|]. tauto.
Qed.

Lemma apart_fun s s2 n m : apart_on s s2 n -> apart_on s s2 m -> n = m.
Proof.
  intros [A B] [C D]. destruct (in_dec (fun x y => eq_dec x y) (s, s2) one_block_stretches) as [I|I]; [rewrite A, C; auto|].
  destruct (in_dec (fun x y => eq_dec x y) (s2, s) one_block_stretches) as [I'|I']; [rewrite A, C; auto|]. rewrite B, D; tauto.
Qed.

Lemma least_behind k mid mid' h a b : least_safe k (map time_of mid) (map time_of mid') h -> a + h <= b -> stays_behind k mid a mid' b.
Proof.
  intros [_ L] AB x X. destruct mid as [|r mid]; [cbn in X; lia|].
  destruct (L ltac:(discriminate)) as [K _]. specialize (K x). rewrite map_length in K. specialize (K X). lra.
Qed.

Lemma runs_key td t tt : runs td t tt -> In t (dkeys td).
Proof. intros (info & R). apply dget_in in R. apply (in_map fst) in R. exact R. Qed.

Lemma nodup_parts {A} (u v : list A) : NoDup (u ++ v) -> NoDup u /\ NoDup v.
Proof.
  induction u as [|y u IH]; cbn; intros N; [split; [constructor|exact N]|]. inversion N; subst. destruct (IH H2). split; [|assumption].
  constructor; [|assumption]. intros I. apply H1, in_or_app. left. exact I.
Qed.

Lemma directly_nodup td t tt s s2 mid : all_blocks_once td -> runs td t tt -> directly tt s s2 mid -> NoDup (map r_block mid).
Proof.
  intros B R [(pre & r1 & r2 & post & -> & _) _]. specialize (B _ _ R). rewrite map_app in B. cbn [map] in B.
  apply nodup_parts in B as [_ B]. inversion B; subst. rewrite map_app in H2. apply nodup_parts in H2. apply H2.
Qed.

(** What the problem asks of two trains that leave [s] for [s2] over the same blocks *)
Lemma following_sep td st net t1 delays d_max cat ts tt p x :
  tidy td st -> 0 <= d_max ->
  tables_to_problem td st net t1 delays d_max cat = Ok (ts, tt, p) -> feasible p x ->
  forall j k tj tk s s2 mid mid',
  j <> k -> runs td j tj -> runs td k tk -> directly tj s s2 mid -> directly tk s s2 mid' ->
  map r_block mid = map r_block mid' ->
  exists n q h q' h', apart_on s s2 n /\ in_resolution 1 h q /\ least_safe n (map time_of mid) (map time_of mid') h /\
    in_resolution 1 h' q' /\ least_safe n (map time_of mid') (map time_of mid) h' /\
    exists a b, Spec.departs ts tt p x (train j) (station s) a /\ Spec.departs ts tt p x (train k) (station s) b /\ separated a b q q'.
Proof.
  intros T D0 H F j k tj tk s s2 mid mid' NE Rj Rk Dj Dk EB.
  destruct (parts _ _ _ _ _ _ _ _ _ _ H) as (C & _ & _ & _ & (d & Ed & Jd) & _ & _ & _ & _ & _ & _ & EH & _).
  pose proof (directly_leaves _ _ _ _ Dj) as Lj. pose proof (directly_leaves _ _ _ _ Dk) as Lk.
  assert (AS : forall s, asked st None s -> In s (dkeys st)) by auto.
  assert (Ps : passes tj s) by (destruct Dj as [G _]; apply (goes_passes _ _ _ _ G)).
  assert (As : asked st None s) by exact (passes_station _ _ _ _ _ T Rj Ps).
  assert (G : exists inner groups g, dget s d = Some inner /\ dget s2 inner = Some groups /\ In g groups /\ In j g /\ In k g).
  { destruct (C55_grouped_partial td st None (tidy_trains _ _ T) (tidy_stations _ _ T) (tidy_marked _ _ T) (tidy_visits _ _ T) AS) as (d' & Ed' & G).
    assert (d' = d) by congruence. subst d'.
    destruct (Builds.both_listed (dkeys td) j k (runs_key _ _ _ Rj) (runs_key _ _ _ Rk) NE) as [(u & v & w & L)|(u & v & w & L)].
    - destruct (G s s2 u j v k w tj tk _ _ As L Rj Rk Lj Lk) as (i & gs & g & ?); [rewrite EB; apply incl_refl|]. exists i, gs, g. tauto.
    - destruct (G s s2 u k v j w tk tj _ _ As L Rk Rj Lk Lj) as (i & gs & g & ?); [rewrite EB; apply incl_refl|]. exists i, gs, g. tauto. }
  destruct G as (inner & groups & g & G1 & G2 & Ig & Ij & Ik).
  assert (LL : exists js, js = trains g /\ (listed js (train j) (train k) \/ listed js (train k) (train j))).
  { exists (trains g). split; [reflexivity|]. destruct (Builds.both_listed g j k Ij Ik NE) as [L|L]; [left|right]; apply (listed_map train); exact L. }
  destruct LL as (js & Ejs & LL).
  assert (I1 : In (station s, emb_groups inner) (ts_Jd ts)).
  { rewrite Jd. unfold emb_jd. apply in_map_iff. exists (s, inner). split; [reflexivity|]. apply dget_in. exact G1. }
  assert (I2 : In (station s2, map trains groups) (emb_groups inner)).
  { unfold emb_groups. apply in_map_iff. exists (s2, groups). split; [reflexivity|]. apply dget_in. exact G2. }
  assert (I3 : In js (map trains groups)) by (subst js; apply in_map; exact Ig).
  assert (NE' : train j <> train k) by (intros E; apply train_inj in E; contradiction).
  destruct (C37_table td st 1 (tidy_trains _ _ T) (tidy_stations _ _ T) (tidy_marked _ _ T) (tidy_visits _ _ T) (tidy_path _ _ T) (named _ _ T)) as (hd & EH' & _ & HT).
  assert (hd = tt_headway tt) by congruence. subst hd.
  destruct (HT j k tj tk s s2 mid mid' NE Rj Rk Dj Dk EB) as (q & h & n & Hq & Rq & An & Ls).
  destruct (HT k j tk tj s s2 mid' mid (not_eq_sym NE) Rk Rj Dk Dj (eq_sym EB)) as (q' & h' & n' & Hq' & Rq' & An' & Ls').
  assert (n' = n) by (eapply apart_fun; eauto). subst n'.
  exists n, q, h, q', h'. split; [exact An|]. split; [exact Rq|]. split; [exact Ls|]. split; [exact Rq'|]. split; [exact Ls'|].
  destruct LL as [L|L].
  - destruct (C01_headway ts tt d_max cat p x (reserved_ok _ _ _ _ _ _ _ _ _ _ T H) (none_ok _ _ _ _ _ _ _ _ _ _ T H) D0 C F _ _ _ _ _ _ _ I1 I2 I3 L NE')
      as (a & b & g1 & g2 & Da & Db & Hd1 & Hd2 & S1).
    unfold Spec.headway in Hd1, Hd2. rewrite joined4 in Hd1, Hd2. unfold key4 in *. exists a, b. split; [exact Da|]. split; [exact Db|].
    rewrite Hq in Hd1. rewrite Hq' in Hd2. inversion Hd1; inversion Hd2; subst. exact S1.
  - destruct (C01_headway ts tt d_max cat p x (reserved_ok _ _ _ _ _ _ _ _ _ _ T H) (none_ok _ _ _ _ _ _ _ _ _ _ T H) D0 C F _ _ _ _ _ _ _ I1 I2 I3 L (not_eq_sym NE'))
      as (b & a & g1 & g2 & Db & Da & Hd1 & Hd2 & S1).
    unfold Spec.headway in Hd1, Hd2. rewrite joined4 in Hd1, Hd2. unfold key4 in *. exists a, b. split; [exact Da|]. split; [exact Db|].
    rewrite Hq' in Hd1. rewrite Hq in Hd2. inversion Hd1; inversion Hd2; subst. destruct S1; [right|left]; assumption.
Qed.

(** C57. Two trains that leave [s] for [s2] over the same blocks, with whole-minute times: their
    departures keep them one or two blocks apart, and they are never on a block together. *)
Theorem C57_following_partial : forall td st net t1 delays d_max cat ts tt p x,
  tidy td st -> 0 <= d_max ->
  tables_to_problem td st net t1 delays d_max cat = Ok (ts, tt, p) -> feasible p x ->
  forall j k tj tk s s2 mid mid',
  j <> k -> runs td j tj -> runs td k tk -> directly tj s s2 mid -> directly tk s s2 mid' ->
  map r_block mid = map r_block mid' -> whole_minutes mid -> whole_minutes mid' ->
  exists a b, Spec.departs ts tt p x (train j) (station s) a /\ Spec.departs ts tt p x (train k) (station s) b /\
    (exists n, apart_on s s2 n /\ (stays_behind n mid a mid' b \/ stays_behind n mid' b mid a)) /\
    never_together mid a mid' b.
Proof.
  intros td st net t1 delays d_max cat ts tt p x T D0 H F j k tj tk s s2 mid mid' NE Rj Rk Dj Dk EB W W'.
  destruct (following_sep _ _ _ _ _ _ _ _ _ _ _ T D0 H F _ _ _ _ _ _ _ _ NE Rj Rk Dj Dk EB)
    as (n & q & h & q' & h' & An & Rq & Ls & Rq' & Ls' & a & b & Da & Db & Sep).
  apply rounding_whole in Rq; [|eapply least_whole; [| |exact Ls]; assumption].
  apply rounding_whole in Rq'; [|eapply least_whole; [| |exact Ls']; assumption].
  exists a, b. split; [exact Da|]. split; [exact Db|].
  assert (B : stays_behind n mid a mid' b \/ stays_behind n mid' b mid a).
  { destruct Sep as [S1|S1]; [left; eapply least_behind; [exact Ls|lra]|right; eapply least_behind; [exact Ls'|lra]]. }
  split; [exists n; auto|].
  pose proof (apart_pos _ _ _ An) as N1.
  pose proof (directly_nodup _ _ _ _ _ _ (tidy_path _ _ T) Rj Dj) as Nd.
  intros c f e f' e' X1 X2. destruct B as [B|B].
  - left. exact (behind_apart n mid a mid' b N1 Nd EB (whole_nonneg _ W) B c f e f' e' X1 X2).
  - right. rewrite EB in Nd. exact (behind_apart n mid' b mid a N1 Nd (eq_sym EB) (whole_nonneg _ W') B c f' e' f e X2 X1).
Qed.
Print Assumptions C57_following_partial.

(** ** Rolling stock *)

Lemma same_stock_sym x j k : same_stock x j k -> same_stock x k j.
Proof. unfold same_stock. tauto. Qed.

Lemma two_trains_in l j k : In (train j, train k) (map two_trains l) -> In (j, k) l.
Proof. intros I. apply in_map_iff in I as ([a b] & E & I). unfold two_trains in E. cbn in E. inversion E; subst. exact I. Qed.

Lemma other_stock td st net t1 delays d_max cat ts tt p j k :
  tables_to_problem td st net t1 delays d_max cat = Ok (ts, tt, p) ->
  different_stock j k -> ~ same_rolling_stock ts (train j) (train k).
Proof.
  intros H [_ N] (_ & s & l & I & J).
  destruct (parts _ _ _ _ _ _ _ _ _ _ H) as (_ & _ & _ & _ & _ & _ & (d & Ed & Jr) & _).
  rewrite Jr in I. apply in_map_iff in I as ([s0 l0] & E & I). cbn in E. inversion E; subst.
  destruct (get_jround_shape _ _ _ Ed) as [_ P].
  destruct J as [J|J]; apply two_trains_in in J; destruct (P _ _ _ _ I J) as (_ & _ & y & Y); [|apply same_stock_sym in Y]; exact (N y Y).
Qed.

(** ** Opposing trains *)

Lemma pass_whole td st net t1 delays d_max cat ts tt p t tb s s2 mid q : tidy td st ->
  tables_to_problem td st net t1 delays d_max cat = Ok (ts, tt, p) ->
  runs td t tb -> directly tb s s2 mid -> whole_minutes mid -> Spec.running tt (train t) (station s) (station s2) q ->
  q == SpecDurations.running mid.
Proof.
  intros T H R D W Q. destruct (parts _ _ _ _ _ _ _ _ _ _ H) as (_ & _ & _ & _ & _ & _ & _ & _ & _ & _ & EP & _).
  destruct (C36_table_partial td None 1 (tidy_visits _ _ T) (tidy_path _ _ T) (named _ _ T) (fun _ x => x)) as (d & Ed & _ & P).
  assert (d = tt_pass tt) by congruence. subst d.
  destruct (P t tb s s2 mid (runs_key _ _ _ R) R D) as (q' & G & Rq). unfold Spec.running in Q. rewrite joined3 in Q. unfold key3 in Q. rewrite G in Q.
  inversion Q; subst. apply rounding_whole; [apply whole_running; exact W|exact Rq].
Qed.

(** C58. Of two trains that run against each other over the same blocks, neither of which ends at
    its far station, one enters the line only when the other one has left it. *)
Theorem C58_opposing_partial : forall td st net t1 delays d_max cat ts tt p x,
  tidy td st -> 0 <= d_max ->
  tables_to_problem td st net t1 delays d_max cat = Ok (ts, tt, p) -> feasible p x ->
  forall j k tj tk s s2 mid mid',
  different_stock j k -> runs td j tj -> runs td k tk -> directly tj s s2 mid -> directly tk s2 s mid' ->
  mid <> [] -> map r_block mid' = rev (map r_block mid) -> whole_minutes mid -> whole_minutes mid' ->
  ~ ends_at tj s2 -> ~ ends_at tk s ->
  exists a b, Spec.departs ts tt p x (train j) (station s) a /\ Spec.departs ts tt p x (train k) (station s2) b /\
    (a + SpecDurations.running mid <= b \/ b + SpecDurations.running mid' <= a).
Proof.
  intros td st net t1 delays d_max cat ts tt p x T D0 H F j k tj tk s s2 mid mid' DS Rj Rk Dj Dk NM EB W W' Ej Ek.
  destruct (parts _ _ _ _ _ _ _ _ _ _ H) as (C & _ & _ & _ & _ & (o & Eo & Jo) & _).
  destruct (C40_opposing_partial td st None (tidy_trains _ _ T) (tidy_stations _ _ T) (tidy_marked _ _ T) (tidy_visits _ _ T) (fun _ x => x))
    as (o' & Eo' & _ & _ & O). assert (o' = o) by congruence. subst o'.
  assert (As : asked st None s) by (apply (passes_station _ _ _ _ _ T Rj); destruct Dj as [G _]; apply (goes_passes _ _ _ _ G)).
  assert (As2 : asked st None s2) by (apply (passes_station _ _ _ _ _ T Rk); destruct Dk as [G _]; apply (goes_passes _ _ _ _ G)).
  assert (OP : opposing tj tk s s2).
  { exists (map r_block mid). split; [destruct mid; [congruence|discriminate]|]. split; [apply directly_leaves; exact Dj|].
    rewrite <- EB. apply directly_leaves. exact Dk. }
  pose proof (reserved_ok _ _ _ _ _ _ _ _ _ _ T H) as RF. pose proof (none_ok _ _ _ _ _ _ _ _ _ _ T H) as NF.
  assert (DS' : different_stock k j) by (destruct DS as [N1 N2]; split; [auto|intros y Y; apply (N2 y), same_stock_sym, Y]).
  assert (NE : train j <> train k) by (intros E; apply train_inj in E; destruct DS; contradiction).
  destruct (O s s2 j k tj tk (proj1 DS) As As2 Rj Rk OP Ej Ek) as [(l & G & I)|(l & G & I)].
  - assert (I1 : In ((station s, station s2), map two_trains l) (ts_Josingle ts)).
    { rewrite Jo. unfold emb_line. apply in_map_iff. exists ((s, s2), l). split; [reflexivity|]. apply dget_in. exact G. }
    assert (I2 : In (train j, train k) (map two_trains l)) by (apply in_map_iff; exists (j, k); auto).
    destruct (C02_single_line ts tt d_max cat p x RF NF D0 C F _ _ _ _ _ I1 I2 NE (other_stock _ _ _ _ _ _ _ _ _ _ _ _ H DS))
      as (a & b & q & q' & Da & Db & Q & Q' & S1).
    exists a, b. split; [exact Da|]. split; [exact Db|].
    rewrite <- (pass_whole _ _ _ _ _ _ _ _ _ _ _ _ _ _ _ _ T H Rj Dj W Q), <- (pass_whole _ _ _ _ _ _ _ _ _ _ _ _ _ _ _ _ T H Rk Dk W' Q'). exact S1.
  - assert (I1 : In ((station s2, station s), map two_trains l) (ts_Josingle ts)).
    { rewrite Jo. unfold emb_line. apply in_map_iff. exists ((s2, s), l). split; [reflexivity|]. apply dget_in. exact G. }
    assert (I2 : In (train k, train j) (map two_trains l)) by (apply in_map_iff; exists (k, j); auto).
    destruct (C02_single_line ts tt d_max cat p x RF NF D0 C F _ _ _ _ _ I1 I2 (not_eq_sym NE) (other_stock _ _ _ _ _ _ _ _ _ _ _ _ H DS'))
      as (b & a & q' & q & Db & Da & Q' & Q & S1).
    exists a, b. split; [exact Da|]. split; [exact Db|].
    rewrite <- (pass_whole _ _ _ _ _ _ _ _ _ _ _ _ _ _ _ _ T H Rj Dj W Q), <- (pass_whole _ _ _ _ _ _ _ _ _ _ _ _ _ _ _ _ T H Rk Dk W' Q').
    destruct S1; [right|left]; assumption.
Qed.
Print Assumptions C58_opposing_partial.

(** ** Switches *)

(** At [s] the train makes the movement ("in": arrival, "out": departure) at time [t]. *)
Definition moves (ts : train_sets) (tt : timetable) (p : lpproblem) (x : assignment) (j : Z) (s label : string) (t : Q) : Prop :=
  (label = "in" /\ arrives ts tt p x (train j) (station s) t) \/
  (label = "out" /\ Spec.departs ts tt p x (train j) (station s) t).

Lemma before_total td j k : In j (dkeys td) -> In k (dkeys td) -> j <> k -> before td j k \/ before td k j.
Proof. intros A B N. destruct (Builds.both_listed _ _ _ A B N); auto. Qed.

Lemma conflict_sym net s tt a tt' b : switch_conflict net s tt a tt' b -> switch_conflict net s tt' b tt a.
Proof. unfold switch_conflict. intros (A & B & z & C & D). split; [exact B|]. split; [exact A|]. exists z. auto. Qed.

(** C60. Two movements over a common switch of a station are at least one minute apart. *)
Theorem C60_switches_partial : forall td st net t1 delays d_max cat ts tt p x,
  tidy td st -> one_row_each net -> 0 <= d_max ->
  tables_to_problem td st net t1 delays d_max cat = Ok (ts, tt, p) -> feasible p x ->
  forall j k tj tk s a b,
  different_stock j k -> runs td j tj -> runs td k tk -> switch_conflict net s tj a tk b ->
  exists t t', moves ts tt p x j s a t /\ moves ts tt p x k s b t' /\ (t + 1 <= t' \/ t' + 1 <= t).
Proof.
  intros td st net t1 delays d_max cat ts tt p x T OR D0 H F j k tj tk s a b DS Rj Rk SC.
  assert (Is : In s (dkeys st)) by (destruct SC as (_ & _ & z & Z & _); apply (passes_station _ _ _ _ _ T Rj), (goes_over_passes _ _ _ _ _ Z)).
  assert (Gen : forall j k tj tk a b, different_stock j k -> runs td j tj -> runs td k tk -> switch_conflict net s tj a tk b -> before td j k ->
    exists t t', moves ts tt p x j s a t /\ moves ts tt p x k s b t' /\ (t + 1 <= t' \/ t' + 1 <= t)).
  { clear j k tj tk a b DS Rj Rk SC. intros j k tj tk a b DS Rj Rk SC B.
    destruct (parts _ _ _ _ _ _ _ _ _ _ H) as (C & _ & _ & _ & _ & _ & _ & _ & (w & Ew & Jw) & _ & _ & _ & _ & Er & _).
    destruct (C42_switches_partial td st net None w (tidy_trains _ _ T) (tidy_stations _ _ T) (tidy_marked _ _ T) (tidy_visits _ _ T) OR Ew) as [K V].
    apply K in Is. apply key_get in Is as (vec & G). destruct (V s vec G) as [_ V']. 
    assert (I : In [(j, a); (k, b)] vec) by (apply V'; exists j, k, tj, tk, a, b; auto).
    assert (I1 : In (station s, map movement vec) (ts_Jswitch ts)).
    { rewrite Jw. unfold emb_switch. apply in_map_iff. exists (s, vec). split; [reflexivity|]. apply dget_in. exact G. }
    assert (I2 : In [(train j, PStr a); (train k, PStr b)] (map movement vec)) by (apply in_map_iff; exists [(j, a); (k, b)]; auto).
    assert (NE : train j <> train k) by (intros E; apply train_inj in E; destruct DS; contradiction).
    destruct (C05_switches ts tt d_max cat p x (reserved_ok _ _ _ _ _ _ _ _ _ _ T H) (none_ok _ _ _ _ _ _ _ _ _ _ T H) D0 C F _ _ _ _ _ _ _ I1 I2 eq_refl NE
      (other_stock _ _ _ _ _ _ _ _ _ _ _ _ H DS)) as (t & t' & r & U & U' & Rv & S1).
    unfold reservation in Rv. rewrite Er in Rv. inversion Rv; subst. exists t, t'.
    cbn [dget uses_switch] in *. unfold uses_switch in U, U'. cbn [dget] in U, U'.
    destruct (eq_dec (train j) (train j)); [|congruence]. destruct (eq_dec (train k) (train j)) as [E|]; [congruence|].
    destruct (eq_dec (train k) (train k)); [|congruence].
    split; [|split; [|exact S1]]; unfold moves.
    - destruct U as [[E U]|[E U]]; inversion E; subst; auto.
    - destruct U' as [[E U']|[E U']]; inversion E; subst; auto. }
  destruct (before_total td j k (runs_key _ _ _ Rj) (runs_key _ _ _ Rk) (proj1 DS)) as [B|B].
  - exact (Gen j k tj tk a b DS Rj Rk SC B).
  - assert (DS' : different_stock k j) by (destruct DS as [N1 N2]; split; [auto|intros y Y; apply (N2 y), same_stock_sym, Y]).
    destruct (Gen k j tk tj b a DS' Rk Rj (conflict_sym _ _ _ _ _ _ SC) B) as (t' & t & M' & M & S1). exists t, t'. tauto.
Qed.
Print Assumptions C60_switches_partial.

(** ** Station tracks *)

(** The station named [s] is not part of the name of the last station of the train (so it does not
    end there). *)
Definition not_named_last (tt : table) (s : string) : Prop := forall e, ends_at tt e -> ~ part_of s e.

Lemma part_of_refl s : part_of s s.
Proof. exists "", "". cbn. induction s as [|c s IH]; cbn; congruence. Qed.

Lemma not_skip td st net t1 delays d_max cat ts tt p j tj s : tidy td st ->
  tables_to_problem td st net t1 delays d_max cat = Ok (ts, tt, p) -> runs td j tj -> not_named_last tj s ->
  ~ names_skip ts (train j) (station s).
Proof.
  intros T H R N (sk' & name & s' & E & G & Es & P).
  destruct (parts _ _ _ _ _ _ _ _ _ _ H) as (_ & (sk & w & Ek & Sk & _) & _).
  rewrite Sk in E. inversion E; subst sk'. unfold emb_skip in G. rewrite (dget_embed train station sk j train_inj) in G.
  unfold station in Es. inversion Es; subst s'. destruct (dget j sk) as [e|] eqn:Ge; [|discriminate]. cbn in G. inversion G; subst name.
  apply (C47_skip td sk (tidy_trains _ _ T) Ek) in Ge as (t' & R' & En). rewrite (runs_fun _ _ _ _ R R') in N. exact (N _ En P).
Qed.

(** Where it turns around, a train ends. *)
Lemma continues_ends td st net t1 delays d_max cat ts tt p j tj s jn : tidy td st -> pairs_meet td st ->
  tables_to_problem td st net t1 delays d_max cat = Ok (ts, tt, p) -> runs td j tj ->
  continues_as ts (station s) (train j) jn -> ends_at tj s.
Proof.
  intros T [M1 M2] H R (l1 & l2 & G & _).
  destruct (parts _ _ _ _ _ _ _ _ _ _ H) as (_ & _ & _ & _ & _ & _ & (r & Er & Jr) & _).
  destruct (C43_placed_partial td st (tidy_trains _ _ T) (tidy_stations _ _ T) M1 M2) as (r' & Er' & _ & PL & _).
  assert (r' = r) by congruence. subst r'. rewrite Jr in G. unfold emb_round in G. rewrite (dget_embed station (map two_trains) r s station_inj) in G.
  destruct (dget s r) as [l|] eqn:Gs; [|discriminate]. cbn in G. inversion G as [E].
  assert (I : In (train j, jn) (map two_trains l)) by (rewrite E; apply in_or_app; right; left; reflexivity).
  apply in_map_iff in I as ([a b] & Eab & I). unfold two_trains in Eab. cbn in Eab. inversion Eab; subst a jn.
  destruct (PL s l j b Gs I) as [(blk & (tj' & tb & Rj & Rb & (f & rr & Et & Bl) & _) & IS) _].
  rewrite (runs_fun _ _ _ _ R Rj), Et. exists f, rr. split; [reflexivity|].
  destruct R as (info & R). apply dget_in in R.
  apply (tidy_marked _ _ T j info tj R rr s); [|rewrite Bl; exact IS].
  destruct Rj as (info' & Rj). apply dget_in in Rj. rewrite (runs_fun td j tj tj'); [rewrite Et; apply in_or_app; right; left; reflexivity| |].
  - exists info. apply in_dget; [apply T|exact R].
  - exists info'. apply in_dget; [apply T|exact Rj].
Qed.

(** C59. Two trains on the same track of a station at which neither ends: one comes only when the
    other one has left. *)
Theorem C59_tracks_partial : forall td st net t1 delays d_max cat ts tt p x,
  tidy td st -> pairs_meet td st -> 0 <= d_max ->
  tables_to_problem td st net t1 delays d_max cat = Ok (ts, tt, p) -> feasible p x ->
  forall j k tj tk s,
  different_stock j k -> runs td j tj -> runs td k tk -> passes tj s -> passes tk s -> same_track st s tj tk ->
  ~ In s no_track_groups -> (forall d, In d depot_tracks -> ~ only_track st s tj d) ->
  not_named_last tj s -> not_named_last tk s ->
  exists a d a' d',
    occupies_from ts tt p x (station s) (train j) a /\ Spec.departs ts tt p x (train j) (station s) d /\
    occupies_from ts tt p x (station s) (train k) a' /\ Spec.departs ts tt p x (train k) (station s) d' /\
    (d <= a' \/ d' <= a).
Proof.
  intros td st net t1 delays d_max cat ts tt p x T PM D0 H F j k tj tk s DS Rj Rk Pj Pk ST NG OT Nj Nk.
  destruct (parts _ _ _ _ _ _ _ _ _ _ H) as (C & _ & _ & _ & _ & _ & _ & (t & Et & Jt) & _ & AD & _).
  pose proof (passes_station _ _ _ _ _ T Rj Pj) as Is.
  destruct (C39_entries td st None (tidy_trains _ _ T) (tidy_stations _ _ T) (tidy_marked _ _ T) (fun _ x => x)) as (t' & Et' & K).
  assert (t' = t) by congruence. subst t'.
  assert (Kt : In s (dkeys t)) by (apply K; split; assumption). apply key_get in Kt as (groups & G).
  destruct (C39_groups td st None t (tidy_trains _ _ T) (tidy_stations _ _ T) (tidy_blocks _ _ T) (tidy_marked _ _ T) Et s groups G) as (_ & _ & _ & _ & M & SM).
  assert (OT' : forall d, In d depot_tracks -> ~ only_track st s tk d).
  { intros d Id [O1 O2]. apply (OT d Id). split; [exact O1|]. intros b Ib. rewrite (ST b Ib). apply O2. exact Ib. }
  assert (Ij : In j (List.concat groups)) by (apply M; exists tj; split; [exact Rj|]; split; [exact Pj|]; intros (d & Id & O); exact (OT d Id O)).
  assert (Ik : In k (List.concat groups)) by (apply M; exists tk; split; [exact Rk|]; split; [exact Pk|]; intros (d & Id & O); exact (OT' d Id O)).
  pose proof Ij as Ij'. apply in_concat in Ij' as (g & Ig & Ijg).
  assert (Ikg : In k g) by (apply (SM g j k tj tk Ig Ijg Ik Rj Rk); exact ST).
  assert (SH : shares_track ts (station s) (train j) (train k)).
  { exists (map trains groups), (trains g). split; [|split; [apply in_map; exact Ig|]].
    - rewrite Jt. unfold emb_groups. apply in_map_iff. exists (s, groups). split; [reflexivity|]. apply dget_in. exact G.
    - destruct (Builds.both_listed g j k Ijg Ikg (proj1 DS)) as [L|L]; [left|right]; apply (listed_map train); exact L. }
  assert (NE : train j <> train k) by (intros E; apply train_inj in E; destruct DS; contradiction).
  assert (TJ : forall jn, ~ continues_as ts (station s) (train j) jn).
  { intros jn Cn. apply (Nj s); [|apply part_of_refl]. eapply continues_ends; eauto. }
  assert (TK : forall jn, ~ continues_as ts (station s) (train k) jn).
  { intros jn Cn. apply (Nk s); [|apply part_of_refl]. eapply continues_ends; eauto. }
  destruct (C04_station_track_partial ts tt d_max cat p x (reserved_ok _ _ _ _ _ _ _ _ _ _ T H) (none_ok _ _ _ _ _ _ _ _ _ _ T H) D0 C F
    (station s) (train j) (train k) SH NE (other_stock _ _ _ _ _ _ _ _ _ _ _ _ H DS)
    (not_skip _ _ _ _ _ _ _ _ _ _ _ _ _ T H Rj Nj) (not_skip _ _ _ _ _ _ _ _ _ _ _ _ _ T H Rk Nk))
    as (a & d & a' & d' & g0 & A & D & A' & D' & Gp & S1).
  { intros jn Cn. destruct (TJ jn Cn). }
  { intros jn Cn. destruct (TK jn Cn). }
  exists a, d, a', d'. split; [exact A|]. split.
  { destruct D as [(jn & Cn & _)|[_ D]]; [destruct (TJ jn Cn)|exact D]. }
  split; [exact A'|]. split.
  { destruct D' as [(jn & Cn & _)|[_ D']]; [destruct (TK jn Cn)|exact D']. }
  assert (g0 == 0) by (destruct Gp as [(l & E & _)|[_ E]]; [congruence|exact E]). destruct S1; [left|right]; lra.
Qed.
Print Assumptions C59_tracks_partial.

(** ** Turnarounds *)

(** C61. Where train [j] ends and the other train of the pair starts, and not the other way round
    as well, the second one leaves only after the arrival of the first and the time to turn around. *)
Theorem C61_turnarounds_partial : forall td st net t1 delays d_max cat ts tt p x,
  tidy td st -> pairs_meet td st -> 0 <= d_max ->
  tables_to_problem td st net t1 delays d_max cat = Ok (ts, tt, p) -> feasible p x ->
  forall j k y tk s row,
  same_stock y j k -> turns td st s j k -> (forall b, ~ meets td k j b) ->
  runs td k tk -> first_stop tk s row -> ~ ends_at tk s ->
  exists t t', arrives ts tt p x (train j) (station s) t /\ Spec.departs ts tt p x (train k) (station s) t' /\
    t + turn_of row <= t'.
Proof.
  intros td st net t1 delays d_max cat ts tt p x T [M1 M2] D0 H F j k y tk s row SS TU NM Rk FS NE.
  destruct (parts _ _ _ _ _ _ _ _ _ _ H) as (C & _ & _ & _ & _ & _ & (r & Er & Jr) & _ & _ & _ & _ & _ & (prep & extra & Ep & Es & Pr) & _ & _ & (init & Ei & _)).
  destruct (C43_placed_partial td st (tidy_trains _ _ T) (tidy_stations _ _ T) M1 M2) as (r' & Er' & _ & PL & UN).
  assert (r' = r) by congruence. subst r'.
  assert (Keys : In y (dkeys td) /\ In (y * 10 + 9)%Z (dkeys td)).
  { destruct TU as (b & (ta & tb & Ra & Rb & _) & _). apply runs_key in Ra, Rb. destruct SS as [[-> ->]|[-> ->]]; auto. }
  destruct (UN y (proj1 Keys) (proj2 Keys)) as (s0 & l & a & b & G & I & SS0 & _).
  destruct (PL s0 l a b G I) as [TU0 _].
  assert (EAB : a = j /\ b = k).
  { assert (AB : (a = j /\ b = k) \/ (a = k /\ b = j)).
    { destruct SS as [[-> ->]|[-> ->]], SS0 as [[-> ->]|[-> ->]]; auto. }
    destruct AB as [|[-> ->]]; [assumption|]. exfalso. destruct TU0 as (blk & Mt & _). exact (NM blk Mt). }
  destruct EAB as [-> ->].
  assert (s0 = s).
  { destruct TU as (b1 & (ta & tb & Ra & Rb & (f & rr & E1 & B1) & _) & IS1), TU0 as (b2 & (ta' & tb' & Ra' & Rb' & (f' & rr' & E2 & B2) & _) & IS2).
    assert (TA : ta' = ta) by (eapply runs_fun; eauto). rewrite TA, E1 in E2. clear TA. apply app_inj_tail in E2 as [_ <-].
    subst b1 b2. eapply (proj2 (tidy_stations _ _ T)); eauto. }
  subst s0.
  assert (I1 : In (station s, map two_trains l) (ts_Jround ts)).
  { rewrite Jr. unfold emb_round. apply in_map_iff. exists (s, l). split; [reflexivity|]. apply dget_in. exact G. }
  assert (I2 : In (train j, train k) (map two_trains l)) by (apply in_map_iff; exists (j, k); auto).
  destruct (C06_circulation ts tt d_max cat p x (reserved_ok _ _ _ _ _ _ _ _ _ _ T H) (none_ok _ _ _ _ _ _ _ _ _ _ T H) D0 C F _ _ _ _ I1 I2)
    as (t & t' & q & A & D & Q & S1).
  exists t, t'. split; [exact A|]. split; [exact D|].
  assert (q == turn_of row); [|lra].
  unfold preparation in Q. rewrite Pr, joined2 in Q.
  assert (Irow : In row tk) by (destruct FS as (pre & post & -> & _ & _); apply in_or_app; right; left; reflexivity).
  assert (Srow : r_station row = Some s) by (destruct FS as (pre & post & _ & _ & E); exact E).
  destruct (C38_tables_partial td st None 1 (tidy_stations _ _ T) (tidy_blocks _ _ T) (tidy_marked _ _ T) (tidy_visits _ _ T) (tidy_path _ _ T) (fun _ x => x))
    as (stop' & extra' & Es' & SP & _).
  rewrite Es in Es'. inversion Es'; subst stop' extra'.
  destruct (SP k tk s row (runs_key _ _ _ Rk) Rk Irow Srow NE) as [_ X]. fold (key2 k s) in X.
  assert (ND : NoDup (dkeys extra)).
  { destruct (all_stops td st 1 (tidy_stations _ _ T) (tidy_blocks _ _ T) (tidy_marked _ _ T) (tidy_visits _ _ T) (tidy_path _ _ T) None (fun _ x => x))
      as (e1 & e2 & E & _). rewrite Es in E. inversion E. apply dupdate_nodup. constructor. }
  destruct (dget (key2 k s) extra) as [v|] eqn:Gx.
  - assert (K : In (key2 k s) (map fst extra)) by (apply dget_in in Gx; apply (in_map fst) in Gx; exact Gx).
    destruct (dupdate_has extra prep (key2 k s) K) as (v' & Gv & Iv). apply (in_dget _ _ _ ND) in Iv.
    rewrite Gv in Q. inversion Q; subst. rewrite Gx in Iv. inversion Iv; subst. unfold turn_of. rewrite <- X. reflexivity.
  - destruct (dget (key2 k s) (dupdate prep extra)) as [v|] eqn:Gd; [|discriminate].
    apply dupdate_get in Gd as [Gd|Gd]; [|apply (in_dget _ _ _ ND) in Gd; congruence]. inversion Q; subst.
    destruct (C38_first td st 1 (tidy_trains _ _ T) (tidy_stations _ _ T) (tidy_blocks _ _ T) (tidy_marked _ _ T) (tidy_visits _ _ T) (tidy_path _ _ T))
      as (prep' & Ep' & CF & _); [intros; eapply initial_passes; eauto|].
    assert (prep' = prep) by congruence. subst prep'.
    destruct (CF k tk s row Rk FS) as (z & Rz & ZZ). fold (key2 k s) in ZZ.
    assert (T0 : turn_of row == 0) by (unfold turn_of; rewrite <- X; reflexivity).
    assert (z == 0) by (rewrite <- T0; apply rounding_whole; [exists 0%Z; exact T0|exact Rz]).
    destruct ZZ as [[N _]|[_ E]]; [contradiction|congruence].
Qed.
Print Assumptions C61_turnarounds_partial.
