(** * PropsPassing: which running times are refused (C84) *)

From Coq Require Import List String ZArith QArith Bool Arith Lia Lqa.
From Verif Require Import Base BaseFacts DataTables DataSets DataTimes SpecTables SpecSets SpecDurations
  TableFacts SetFacts TimeFacts PropsTables PropsSets PropsSwitch PropsTimes.
Import ListNotations.
Open Scope string_scope.
Open Scope list_scope.

Lemma firstn_In' {A} (x : A) n l : In x (firstn n l) -> In x l.
Proof. revert n. induction l as [|y l IH]; intros [|n]; cbn [firstn In]; intuition eauto. Qed.

Lemma skipn_In' {A} (x : A) n l : In x (skipn n l) -> In x l.
Proof. revert n. induction l as [|y l IH]; intros [|n]; cbn [skipn In]; intuition eauto. Qed.

(** The time is refused exactly if the first name is empty or the train does not visit the second station. *)
Theorem C84_refused_partial : forall tt s s2 r,
  (minimal_passing_time tt s s2 r = Err AssertionError <-> s = "" \/ ~ passes tt s2) /\
  (s = "" \/ ~ passes tt s2 \/ exists q, minimal_passing_time tt s s2 r = Ok q).
Proof.
  intros tt s s2 r. unfold minimal_passing_time. destruct (eqb s "") eqn:E.
  { apply eqb_eq in E. subst s. cbn [negb andb]. tauto. }
  cbn [negb andb]. assert (NE : s <> "") by (intros ->; rewrite eqb_refl in E; discriminate E).
  destruct (lmem s2 (train_important_stations tt)) eqn:M.
  2:{ cbn [negb]. assert (~ passes tt s2) by (rewrite <- stations_in, <- lmem_true; congruence). tauto. }
  cbn [negb]. assert (P : passes tt s2) by (apply stations_in, lmem_true; exact M).
  assert (K : exists q, (do '(blocks, _) <- get_blocks_b2win_station4train tt s s2;
    do times <- mapM (fun b => get_passing_time_block b tt) blocks; Ok (round_if r (qsum times))) = Ok q).
  { assert (B : exists bs f, get_blocks_b2win_station4train tt s s2 = Ok (bs, f) /\ forall b, In b bs -> In b (path_of tt)).
    { unfold get_blocks_b2win_station4train. destruct (lmem s (train_important_stations tt)) eqn:M1; [|cbn [negb]; do 2 eexists; split; [reflexivity|intros b []]].
      rewrite M. cbn [negb]. apply lmem_true in M1. pose proof M1 as L1; apply lindex_in in L1 as (i1 & ->). pose proof M as M2. apply lmem_true in M2.
      apply lindex_in in M2 as (i2 & ->). cbn [bind]. destruct (i2 <? i1)%nat; [do 2 eexists; split; [reflexivity|intros b []]|].
      set (ind := positions _ tt 0). assert (NN : ind <> []).
      { unfold ind. clear - M1. assert (G : forall n, positions (fun r0 => at_station s r0 || at_station s2 r0) tt n <> []); [|apply G].
        induction tt as [|x tt IH]; [destruct M1|]. intros n. cbn [positions]. destruct (at_station s x || at_station s2 x) eqn:A; [discriminate|]. apply IH.
        apply stations_in in M1 as (y & [<-|I] & Y); [|apply stations_in; exists y; auto].
        unfold at_station in A. rewrite Y, eqb_refl in A. discriminate A. }
      destruct ind as [|a ind]; [contradiction|]. cbn [lnth nth_error bind].
      assert (LT : exists b, last1 (a :: ind) = Ok b) by (destruct (exists_last NN) as (u & b & ->); exists b; apply last1_snoc). destruct LT as (b & ->). cbn [bind]. do 2 eexists. split; [reflexivity|]. intros x. unfold slice. intros X. apply firstn_In' in X. apply skipn_In' in X. exact X. }
    destruct B as (bs & f & -> & IN). cbn [bind].
    assert (T : exists l, mapM (fun b => get_passing_time_block b tt) bs = Ok l).
    { apply mapM_total. intros b I. apply IN in I. unfold path_of in I. apply in_map_iff in I as (x & <- & I).
      unfold get_passing_time_block. destruct (filter (fun r0 => eqb (r_block r0) (r_block x)) tt) eqn:F; [|eauto].
      assert (X : In x []) by (rewrite <- F; apply filter_In; split; [exact I|apply eqb_refl]). destruct X. }
    destruct T as (l & ->). cbn [bind]. eauto. }
  destruct K as (q & K). rewrite K. split; [split; [discriminate|tauto]|]. right. right. exists q. reflexivity.
Qed.
Print Assumptions C84_refused_partial.

(** A first station that the train does not visit is not refused: the running time is 0.  So it is for two stations in
    the wrong order. *)
Theorem C84_first_refuted : forall tt s s2 r, s <> "" -> passes tt s2 ->
  (~ passes tt s -> exists q, minimal_passing_time tt s s2 r = Ok q /\ q == 0) /\
  (visits_once tt -> (exists mid, goes tt s2 s mid) -> exists q, minimal_passing_time tt s s2 r = Ok q /\ q == 0).
Proof.
  intros tt s s2 r NE P. unfold minimal_passing_time. assert (E : eqb s "" = false) by (apply eqb_false; exact NE). rewrite E.
  assert (M : lmem s2 (train_important_stations tt) = true) by (apply lmem_true, stations_in; exact P). rewrite M. cbn [negb andb].
  assert (Z : round_if r (qsum []) == 0) by (unfold round_if; destruct (Z.eqb r 1); reflexivity).
  split.
  - intros N. unfold get_blocks_b2win_station4train.
    destruct (lmem s (train_important_stations tt)) eqn:M1; [exfalso; apply N, stations_in, lmem_true; exact M1|]. cbn [negb bind mapM].
    eexists. split; [reflexivity|exact Z].
  - intros V (mid & pre & r1 & r2 & post & -> & E1 & E2). pose proof V as ND. apply visits_once_nodup in ND.
    unfold get_blocks_b2win_station4train.
    set (tt := pre ++ r1 :: mid ++ r2 :: post) in *.
    assert (ST : train_important_stations tt =
       train_important_stations pre ++ s2 :: train_important_stations mid ++ s :: train_important_stations post).
    { unfold tt. rewrite stations_app. change (r1 :: mid ++ r2 :: post) with ([r1] ++ mid ++ [r2] ++ post).
      rewrite !stations_app. simpl. rewrite E1, E2. reflexivity. }
    assert (M1 : lmem s (train_important_stations tt) = true).
    { apply lmem_true. rewrite ST. apply in_app_iff. right. right. apply in_app_iff. right. left. reflexivity. }
    rewrite M1, M. cbn [negb]. rewrite ST in ND |- *. rewrite lindex_mid.
    2:{ apply NoDup_remove_2 in ND. intros X. apply ND. apply in_app_iff. auto. }
    change (train_important_stations pre ++ s2 :: train_important_stations mid ++ s :: train_important_stations post)
      with (train_important_stations pre ++ (s2 :: train_important_stations mid) ++ s :: train_important_stations post) in *.
    rewrite app_assoc in *. rewrite lindex_mid.
    2:{ apply NoDup_remove_2 in ND. intros X. apply ND. apply in_app_iff. auto. }
    cbn [bind]. rewrite app_length. cbn [List.length].
    destruct (Nat.ltb_spec (List.length (train_important_stations pre)) (List.length (train_important_stations pre) + S (List.length (train_important_stations mid)))); [|lia].
    cbn [bind mapM]. eexists. split; [reflexivity|exact Z].
Qed.
Print Assumptions C84_first_refuted.

Example C84_case : minimal_passing_time run_tt "A" "C" 1 = Ok 6%Q /\ minimal_passing_time run_tt "C" "A" 1 = Ok 0%Q /\
  minimal_passing_time run_tt "Q" "A" 1 = Ok 0%Q /\ minimal_passing_time run_tt "A" "Q" 1 = Err AssertionError.
Proof. repeat split; vm_compute; reflexivity. Qed.
