(** * PropsReal: the tables of the repository (C69) *)

From Coq Require Import List String Ascii ZArith QArith Bool Lia Lqa.
From Verif Require Import Base BaseFacts Pulp Helpers LinearSolver Spec SpecNames DataTables DataSets DataTimes Pipeline
  SpecDurations SpecEnd Names TableFacts SetFacts TimeFacts PropsTables PropsSchedule EndFacts PropsEnd PropsEndCases PropsTotal PropsTotalCases
  LineChecks RealData.
From Verif Require Import DataTables SpecTables SpecSets.
Import ListNotations.
Open Scope string_scope.
Open Scope list_scope.

(** ** Deciding that trains x and x9 meet and that the time to turn around is given *)

Definition first_block (tt : table) : option string := match tt with [] => None | r :: _ => Some (r_block r) end.
Fixpoint last_block (tt : table) : option string :=
  match tt with [] => None | [r] => Some (r_block r) | _ :: rest => last_block rest end.
Fixpoint turn_given (tt : table) : bool :=
  match tt with
  | [] => true
  | r :: rest => match r_station r with
                 | None => turn_given rest
                 | Some _ => match r_turn r with Some _ => true | None => false end
                 end
  end.

(** If a train with the first timetable ends where one with the second starts, this is at a station
    and the time is given. *)
Definition meetb (st : station_blocks) (tt tt' : table) : bool := eqb (last_block tt) (first_block tt').
Definition meetokb (st : station_blocks) (tt tt' : table) : bool :=
  negb (meetb st tt tt') ||
  (match first_block tt' with Some b => existsb (fun e => lmem b (snd e)) st | None => false end && turn_given tt').

Definition pairsb (td : train_dict) (st : station_blocks) : bool :=
  forallb (fun e => match dget (fst e * 10 + 9)%Z td with
    | None => true
    | Some (_, tt') =>
        let tt := snd (snd e) in
        (meetb st tt tt' || meetb st tt' tt) && meetokb st tt tt' && meetokb st tt' tt
    end) td.

Lemma last_block_snoc f r : last_block (f ++ [r]) = Some (r_block r).
Proof. induction f as [|x f IH]; [reflexivity|]. cbn. rewrite IH. destruct (f ++ [r]) eqn:E; [destruct f; discriminate|reflexivity]. Qed.

Lemma last_block_ends tt b : last_block tt = Some b <-> ends_on tt b.
Proof.
  split.
  - destruct tt as [|x tt] using rev_ind; [discriminate|]. rewrite last_block_snoc. intros E. injection E as <-. exists tt, x. auto.
  - intros (f & r & -> & <-). apply last_block_snoc.
Qed.

Lemma first_block_starts tt b : first_block tt = Some b <-> starts_on tt b.
Proof.
  split.
  - destruct tt as [|x tt]; [discriminate|]. intros E. injection E as <-. exists x, tt. auto.
  - intros (r & w & -> & <-). reflexivity.
Qed.

Lemma turn_given_ok tt s row : turn_given tt = true -> first_stop tt s row -> r_turn row <> None.
Proof.
  intros G (pre & post & -> & N & E). induction pre as [|x pre IH]; cbn in G.
  - rewrite E in G. destruct (r_turn row); [discriminate|discriminate G].
  - rewrite (N x (or_introl eq_refl)) in G. apply IH; [exact G|]. intros y I. apply N. right. exact I.
Qed.

Lemma pairsb_ok td st : NoDup (dkeys td) -> pairsb td st = true -> pairs_meet td st /\
  forall x j k s tk row, same_stock x j k -> turns td st s j k -> runs td k tk -> first_stop tk s row -> r_turn row <> None.
Proof.
  intros ND B. unfold pairsb in B. rewrite forallb_forall in B.
  assert (P : forall x i tt i' tt', dget x td = Some (i, tt) -> dget (x * 10 + 9)%Z td = Some (i', tt') ->
    (meetb st tt tt' || meetb st tt' tt) = true /\ meetokb st tt tt' = true /\ meetokb st tt' tt = true).
  { intros x i tt i' tt' E E'. apply dget_in in E. apply B in E. cbn [fst snd] in E. rewrite E' in E. rewrite !andb_true_iff in E. tauto. }
  assert (Q : forall x j k tj tk, same_stock x j k -> runs td j tj -> runs td k tk -> meetokb st tj tk = true).
  { intros x j k tj tk [[-> ->]|[-> ->]] (i & R) (i' & R'); [destruct (P x i tj i' tk R R') as (_ & X & _)|destruct (P x i' tk i tj R' R) as (_ & _ & X)]; exact X. }
  assert (M : forall x j k tj tk b, same_stock x j k -> runs td j tj -> runs td k tk -> ends_on tj b -> starts_on tk b ->
    (exists s, in_station st b s) /\ turn_given tk = true).
  { intros x j k tj tk b SS R R' E S. apply (Q x j k tj tk SS R) in R'. apply last_block_ends in E. apply first_block_starts in S.
    unfold meetokb, meetb in R'. rewrite E, S, eqb_refl in R'. cbn [negb orb] in R'. apply andb_true_iff in R' as [R1 R2]. split; [|exact R2].
    apply existsb_exists in R1 as ([s bs] & I & L). apply lmem_true in L. exists s, bs. auto. }
  split; [split|].
  - intros x I I'. destruct (dget x td) as [[i tt]|] eqn:E; [|apply dget_none in E; contradiction].
    destruct (dget (x * 10 + 9)%Z td) as [[i' tt']|] eqn:E'; [|apply dget_none in E'; contradiction].
    destruct (P x i tt i' tt' E E') as (X & MA & MB). unfold meetokb in MA, MB.
    apply orb_true_iff in X as [X|X].
    + rewrite X in MA. cbn in MA. apply andb_true_iff in MA as [MA _]. unfold meetb in X. apply eqb_eq in X.
      destruct (first_block tt') as [b|] eqn:F; [|discriminate]. exists x, (x * 10 + 9)%Z, b. split; [left; auto|].
      exists tt, tt'. split; [exists i; exact E|]. split; [exists i'; exact E'|]. split; [apply last_block_ends; exact X|apply first_block_starts; exact F].
    + rewrite X in MB. cbn in MB. apply andb_true_iff in MB as [MB _]. unfold meetb in X. apply eqb_eq in X.
      destruct (first_block tt) as [b|] eqn:F; [|discriminate]. exists (x * 10 + 9)%Z, x, b. split; [right; auto|].
      exists tt', tt. split; [exists i'; exact E'|]. split; [exists i; exact E|]. split; [apply last_block_ends; exact X|apply first_block_starts; exact F].
  - intros x j k b SS (tj & tk & R & R' & E & S). apply (M x j k tj tk b SS R R' E S).
  - intros x j k s tk row SS (b & (tj & tk' & R & R' & E & S) & _) Rk FS.
    assert (tk' = tk) as -> by (destruct R' as (i & R'), Rk as (i' & Rk); congruence).
    apply (turn_given_ok tk s row); [apply (M x j k tj tk b SS R R' E S)|exact FS].
Qed.

(** ** The tables *)

(** What the scripts load, with the reference time: cases 0 to 3, 4 and 5, 6, and 7 to 9 of
    solve_real_problem.py:92-126, and cases 1 to 3 of solve_KO_GLC_problems.py:71-96 *)
Definition shipped : list (list line * station_blocks * string) :=
  [(schedule_main, stations_main, "16:00"); (schedule_gt, stations_gt, "16:00");
   (schedule_1track, stations_main, "16:00"); (schedule_1track_gt, stations_gt, "16:00");
   (schedule_glc, stations_glc, "14:00"); (schedule_glc_r, stations_glc_r, "14:00"); (schedule_glc_v2, stations_glc_r, "14:00")].

(** Every train has a time on each of its blocks but the last one. *)
Definition timed (td : train_dict) : Prop :=
  forall t tt pre r r2 post, runs td t tt -> tt = pre ++ r :: r2 :: post -> r_pass r <> None.

Fixpoint timedb (tt : table) : bool :=
  match tt with
  | r :: ((_ :: _) as rest) => match r_pass r with Some _ => timedb rest | None => false end
  | _ => true
  end.

Lemma timedb_ok td : forallb (fun e => timedb (snd (snd e))) td = true -> timed td.
Proof.
  intros B t tt pre r r2 post (i & R) ->. apply dget_in in R. rewrite forallb_forall in B. apply B in R. cbn [fst snd] in R. clear B i t.
  induction pre as [|x pre IH].
  - cbn in R. destruct (r_pass r); [discriminate|discriminate R].
  - apply IH. destruct pre as [|y pre]; cbn in R |- *; destruct (r_pass x); try discriminate; exact R.
Qed.

Definition checks (td : train_dict) (st : station_blocks) (t1 : string) : bool :=
  tidyb td st && simpleb td st network t1 && pairsb td st && linesb td && forallb (fun e => timedb (snd (snd e))) td
      && line_rulesb td st network && nonnegb td.

Definition if_read (r : res train_dict) (f : train_dict -> bool) : bool := match r with Ok td => f td | Err _ => false end.

Definition tables_ok (x : list line * station_blocks * string) : bool :=
  let '(data, st, t1) := x in if_read (build_timetables data st network) (fun td => checks td st t1).

Lemma if_read_ok r f : if_read r f = true -> exists td, r = Ok td /\ f td = true.
Proof. destruct r as [td|]; [|discriminate]. intros H. exists td. auto. Qed.

Lemma checks_ok td st t1 : checks td st t1 = true ->
  tidy td st /\ complete td st network t1 /\ no_part_lines td /\ timed td /\ lines_kept td st network /\
    forall t tt, runs td t tt -> nonneg_times tt.
Proof.
  unfold checks. rewrite !andb_true_iff. intros [[[[[[I1 I2] I3] I4] I5] I6] I7].
  assert (T : tidy td st) by (apply tidyb_ok; exact I1).
  split; [exact T|]. split.
  { destruct (pairsb_ok td st (tidy_trains _ _ T) I3) as [PM TR]. apply simpleb_ok; [exact (tidy_trains _ _ T)|exact I2|exact PM|exact TR]. }
  split; [apply linesb_ok; exact I4|]. split; [apply timedb_ok; exact I5|]. split; [apply line_rulesb_ok; exact I6|].
  intros t tt. apply nonnegb_ok. exact I7.
Qed.

Lemma shipped_ok : forallb tables_ok shipped = true.
Proof. vm_cast_no_check (eq_refl true). Qed.

Lemma shipped_facts data st t1 : In (data, st, t1) shipped ->
  exists td, build_timetables data st network = Ok td /\
    tidy td st /\ complete td st network t1 /\ no_part_lines td /\ timed td /\ lines_kept td st network /\
    forall t tt, runs td t tt -> nonneg_times tt.
Proof.
  intros I. pose proof shipped_ok as B. rewrite forallb_forall in B. apply B in I.
  apply if_read_ok in I as (td & E & I). exists td. split; [exact E|]. exact (checks_ok td st t1 I).
Qed.

(** C69: each of the tables is read, is tidy and complete, and gives a problem for every scenario of
    delays and every bound on delays. *)
Theorem C69_shipped : forall data st t1, In (data, st, t1) shipped ->
  exists td, build_timetables data st network = Ok td /\
    tidy td st /\ complete td st network t1 /\ no_part_lines td /\ timed td /\
    forall delays d_max cat, ~ d_max == 0 -> exists ts tt p, tables_to_problem td st network t1 delays d_max cat = Ok (ts, tt, p).
Proof.
  intros data st t1 I. destruct (shipped_facts data st t1 I) as (td & E & T & C & L & TM & _).
  exists td. split; [exact E|]. split; [exact T|]. split; [exact C|]. split; [exact L|]. split; [exact TM|].
  intros delays d_max cat D. exact (C56_builds_partial td st network t1 delays d_max cat T C L D).
Qed.
Print Assumptions C69_shipped.
