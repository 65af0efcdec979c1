(** * PropsOldBlocks: the replaced lookup of blocks between stations gives what the new one gives
    (C91) *)

From Coq Require Import List String ZArith QArith Bool Lia.
From Verif Require Import Base BaseFacts DataTables SpecTables TableFacts SpecSets SetFacts SpecFacts
  OldBlocks PropsLists.
Import ListNotations.
Open Scope string_scope.
Open Scope list_scope.

Lemma paths_get td t tt : runs td t tt -> dlookup t (get_Paths td) = Ok (train_important_stations tt).
Proof.
  intros (info & G). apply dlookup_ok. unfold get_Paths. revert G. 
  induction td as [|(k, (i, x)) r IH]; cbn; [discriminate|].
  destruct (eq_dec t k) as [->|N].
  - intros [= -> ->]. reflexivity.
  - exact IH.
Qed.

Lemma from_skip bs1 pre b r : (forall x, In x pre -> ~ In x bs1) -> In b bs1 ->
  from_station bs1 (pre ++ b :: r) = Ok (b :: r).
Proof.
  intros P I. induction pre as [|x pre IH]; cbn [app from_station].
  - apply lmem_true in I. rewrite I. reflexivity.
  - assert (N : lmem x bs1 = false) by (apply lmem_false, P; left; reflexivity).
    rewrite N. apply IH. intros y Y. apply P. right. exact Y.
Qed.

Lemma up_to_take bs2 l b r : (forall x, In x l -> ~ In x bs2) -> In b bs2 ->
  up_to_station bs2 (l ++ b :: r) = l.
Proof.
  intros P I. induction l as [|x l IH]; cbn [app up_to_station].
  - apply lmem_true in I. rewrite I. reflexivity.
  - assert (N : lmem x bs2 = false) by (apply lmem_false, P; left; reflexivity).
    rewrite N. rewrite IH by (intros y Y; apply P; right; exact Y).
    destruct l; reflexivity.
Qed.

Lemma pop_first bs1 bs2 b l : In b bs1 -> (forall x, In x l -> ~ In x bs2) -> pop_ends bs1 bs2 (b :: l) = l.
Proof.
  intros I P. unfold pop_ends. apply lmem_true in I. rewrite I.
  destruct (rev l) as [|x r] eqn:E.
  - apply (f_equal (@rev string)) in E. rewrite rev_involutive in E. subst. reflexivity.
  - assert (N : lmem x bs2 = false).
    { apply lmem_false, P. apply in_rev. rewrite E. left. reflexivity. }
    rewrite N. reflexivity.
Qed.

Lemma station_listed st s b : NoDup (dkeys st) -> in_station st b s ->
  exists bs, dlookup s st = Ok bs /\ forall x, In x bs <-> in_station st x s.
Proof.
  intros ND (bs & I & _).
  assert (G : dget s st = Some bs) by (apply in_dget; assumption).
  exists bs. split; [apply dlookup_ok; exact G|]. intros x. split.
  - intros X. exists bs. auto.
  - intros (bs' & I' & X). apply (in_dget s bs' st ND) in I'. congruence.
Qed.

Lemma old_between td t tt st s s2 mid : stations_apart st -> annotated st tt -> visits_once tt -> runs td t tt ->
  goes tt s s2 mid ->
  get_blocks_b2win_station4train_deprecable td st t s s2 = Ok (map r_block mid, Some false).
Proof.
  intros SA AN V R G. pose proof (blocks_between tt s s2 mid V G) as B.
  destruct G as (pre & r1 & r2 & post & E & E1 & E2).
  unfold get_blocks_b2win_station4train_deprecable. rewrite (paths_get td t tt R). cbn [bind].
  unfold get_blocks_b2win_station4train in B.
  destruct (lmem s (train_important_stations tt)); cbn [negb] in *; [|discriminate B].
  destruct (lmem s2 (train_important_stations tt)); cbn [negb] in *; [|discriminate B].
  destruct (lindex s (train_important_stations tt)) as [i1|e1]; cbn [bind] in *; [|discriminate B].
  destruct (lindex s2 (train_important_stations tt)) as [i2|e2]; cbn [bind] in *; [|discriminate B].
  destruct (i2 <? i1)%nat; [discriminate B|]. clear B.
  destruct R as (info & R). unfold train_time_table.
  assert (I1 : In r1 tt) by (subst tt; apply in_or_app; right; left; reflexivity).
  assert (I2 : In r2 tt) by (subst tt; apply in_or_app; right; right; apply in_or_app; right; left; reflexivity).
  assert (A1 := proj1 (AN r1 s I1) E1). assert (A2 := proj1 (AN r2 s2 I2) E2).
  destruct (station_listed st s _ (proj1 SA) A1) as (bs1 & L1 & M1).
  destruct (station_listed st s2 _ (proj1 SA) A2) as (bs2 & L2 & M2).
  apply dlookup_ok in R. rewrite R. cbn [bind snd]. rewrite L1. cbn [bind].
  assert (P : path_of tt = map r_block pre ++ r_block r1 :: map r_block mid ++ r_block r2 :: map r_block post).
  { subst tt. unfold path_of. rewrite map_app. cbn [map]. rewrite map_app. reflexivity. }
  assert (NP : forall x, In x (map r_block pre) -> ~ In x bs1).
  { intros x X Y. apply in_map_iff in X as (r & <- & X). apply M1 in Y.
    assert (J : In r tt) by (subst tt; apply in_or_app; left; exact X).
    apply (AN r s J) in Y. apply in_split in X as (u & v & ->).
    refine (V u r v r1 (mid ++ r2 :: post) s _ Y E1). rewrite E, <- app_assoc. reflexivity. }
  assert (NM : forall x, In x (map r_block mid) -> ~ In x bs2).
  { intros x X Y. apply in_map_iff in X as (r & <- & X). apply M2 in Y.
    assert (J : In r tt) by (subst tt; apply in_or_app; right; right; apply in_or_app; left; exact X).
    apply (AN r s2 J) in Y. apply in_split in X as (u & v & ->).
    refine (V (pre ++ r1 :: u) r v r2 post s2 _ Y E2). rewrite E, <- !app_assoc. reflexivity. }
  assert (N1 : ~ In (r_block r1) bs2).
  { intros Y. apply M2 in Y. apply (AN r1 s2 I1) in Y. refine (V pre r1 mid r2 post s2 E Y E2). }
  rewrite P, from_skip; [|exact NP|apply M1, A1]. cbn [bind]. rewrite L2. cbn [bind].
  change (r_block r1 :: map r_block mid ++ r_block r2 :: map r_block post)
    with ((r_block r1 :: map r_block mid) ++ r_block r2 :: map r_block post).
  rewrite up_to_take.
  - rewrite pop_first; [reflexivity|apply M1, A1|exact NM].
  - intros x [<-|X]; auto.
  - apply M2, A2.
Qed.

Lemma not_in_sts tt s : ~ passes tt s -> lmem s (train_important_stations tt) = false.
Proof.
  intros N. apply lmem_false. intros I. apply N. apply stations_in. exact I.
Qed.

(** In a timetable whose stations agree with the file of stations, and with one row per station,
    the replaced function returns what the new one returns: the blocks strictly between the
    stations, or an empty list with [rev] if the train runs the other way, or an empty list and None
    if it does not come to one of them. *)
Theorem C91_old_blocks : forall td t tt st s s2,
  stations_apart st -> annotated st tt -> visits_once tt -> runs td t tt ->
  get_blocks_b2win_station4train_deprecable td st t s s2 = get_blocks_b2win_station4train tt s s2 /\
  (forall mid, goes tt s s2 mid ->
     get_blocks_b2win_station4train_deprecable td st t s s2 = Ok (map r_block mid, Some false)) /\
  (forall mid, goes tt s2 s mid ->
     get_blocks_b2win_station4train_deprecable td st t s s2 = Ok ([], Some true)) /\
  (~ passes tt s \/ ~ passes tt s2 ->
     get_blocks_b2win_station4train_deprecable td st t s s2 = Ok ([], None)).
Proof.
  intros td t tt st s s2 SA AN V R.
  assert (REV : forall mid, goes tt s2 s mid ->
     get_blocks_b2win_station4train_deprecable td st t s s2 = Ok ([], Some true)).
  { intros mid G. pose proof (blocks_reverse tt s s2 mid V G) as B.
    unfold get_blocks_b2win_station4train_deprecable. rewrite (paths_get td t tt R). cbn [bind].
    unfold get_blocks_b2win_station4train in B.
    destruct (lmem s (train_important_stations tt)); cbn [negb] in *; [|discriminate B].
    destruct (lmem s2 (train_important_stations tt)); cbn [negb] in *; [|discriminate B].
    destruct (lindex s (train_important_stations tt)) as [i1|e1]; cbn [bind] in *; [|discriminate B].
    destruct (lindex s2 (train_important_stations tt)) as [i2|e2]; cbn [bind] in *; [|discriminate B].
    destruct (i2 <? i1)%nat; [reflexivity|].
    destruct (lnth _ 0); cbn [bind] in B; [|discriminate B].
    destruct (last1 _); cbn [bind] in B; discriminate B. }
  assert (NOT : ~ passes tt s \/ ~ passes tt s2 ->
     get_blocks_b2win_station4train_deprecable td st t s s2 = Ok ([], None) /\
     get_blocks_b2win_station4train tt s s2 = Ok ([], None)).
  { intros H. unfold get_blocks_b2win_station4train_deprecable, get_blocks_b2win_station4train.
    rewrite (paths_get td t tt R). cbn [bind].
    destruct H as [H|H]; rewrite (not_in_sts _ _ H); cbn [negb]; [auto|].
    destruct (lmem s _); cbn [negb]; auto. }
  repeat split.
  - destruct (lmem s (train_important_stations tt)) eqn:M1.
    2:{ apply lmem_false in M1. destruct NOT as [-> ->]; [left; intros P; apply M1, stations_in, P|reflexivity]. }
    destruct (lmem s2 (train_important_stations tt)) eqn:M2.
    2:{ apply lmem_false in M2. destruct NOT as [-> ->]; [right; intros P; apply M2, stations_in, P|reflexivity]. }
    apply lmem_true in M1, M2. apply stations_in in M1, M2.
    destruct (string_dec s s2) as [<-|N].
    + destruct M1 as (r1 & I1 & E1). apply in_split in I1 as (pre & post & E).
      assert (A1 : in_station st (r_block r1) s).
      { apply AN; [subst tt; apply in_or_app; right; left; reflexivity|exact E1]. }
      destruct (station_listed st s _ (proj1 SA) A1) as (bs1 & L1 & B1).
      assert (NP : forall x, In x (map r_block pre) -> ~ In x bs1).
      { intros x X Y. apply in_map_iff in X as (r & <- & X). apply B1 in Y.
        assert (J : In r tt) by (subst tt; apply in_or_app; left; exact X).
        apply (AN r s J) in Y. apply in_split in X as (u & v & ->).
        refine (V u r v r1 post s _ Y E1). rewrite E, <- app_assoc. reflexivity. }
      assert (MM : lmem s (train_important_stations tt) = true).
      { apply lmem_true, stations_in. exists r1. split; [subst tt; apply in_or_app; right; left; reflexivity|exact E1]. }
      unfold get_blocks_b2win_station4train_deprecable, get_blocks_b2win_station4train.
      rewrite (paths_get td t tt R). cbn [bind]. rewrite MM. cbn [negb].
      destruct (lindex_in s (train_important_stations tt)) as [LI _]. destruct (LI (proj1 (lmem_true _ _) MM)) as (i1 & ->). cbn [bind].
      rewrite Nat.ltb_irrefl.
      assert (PO : positions (fun r => at_station s r || at_station s r) tt 0 = [List.length pre]).
      { rewrite E, positions_app, positions_none.
        - cbn [app positions]. assert (T : at_station s r1 = true) by (unfold at_station; rewrite E1; apply eqb_true; reflexivity).
          rewrite T. cbn [orb]. rewrite positions_none; [reflexivity|].
          intros x X. apply in_split in X as (u & v & ->). 
          unfold at_station. destruct (r_station x) as [y|] eqn:Y; [|reflexivity].
          destruct (eqb y s) eqn:Q; [|reflexivity]. apply (proj1 (eqb_true _ _)) in Q. rewrite Q in Y.
          exfalso. exact (V pre r1 u x v s E E1 Y).
        - intros x X. apply in_split in X as (u & v & ->).
          unfold at_station. destruct (r_station x) as [y|] eqn:Y; [|reflexivity].
          destruct (eqb y s) eqn:Q; [|reflexivity]. apply (proj1 (eqb_true _ _)) in Q. rewrite Q in Y.
          exfalso. refine (V u x v r1 post s _ Y E1). rewrite E, <- app_assoc. reflexivity. }
      rewrite PO. cbn [lnth nth_error last1 rev app bind].
      destruct R as (info & R). unfold train_time_table. apply dlookup_ok in R. rewrite R. cbn [bind snd].
      rewrite L1. cbn [bind].
      assert (P : path_of tt = map r_block pre ++ r_block r1 :: map r_block post).
      { subst tt. unfold path_of. rewrite map_app. reflexivity. }
      rewrite P, from_skip; [|exact NP|apply B1, A1]. cbn [bind up_to_station].
      assert (T : lmem (r_block r1) bs1 = true) by (apply lmem_true, B1, A1). rewrite T.
      unfold slice. replace (List.length pre - (List.length pre + 1))%nat with 0%nat by lia. reflexivity.
    + destruct (goes_or tt s s2 N M1 M2) as [(m & G)|(m & G)].
      * rewrite (old_between td t tt st s s2 m SA AN V R G), (blocks_between tt s s2 m V G). reflexivity.
      * rewrite (REV m G), (blocks_reverse tt s s2 m V G). reflexivity.
  - intros mid G. exact (old_between td t tt st s s2 mid SA AN V R G).
  - exact REV.
  - intros H. apply NOT, H.
Qed.

Print Assumptions C91_old_blocks.

(** The condition of one row per station is needed: at a station passed over two blocks the new
    function counts the first of them as a block before the station, the replaced one does not. *)
Definition two_blocks : table :=
  let r b s := MkRow b None None None None None None None None s in
  [r "a" (Some "A"); r "m" None; r "b1" (Some "B"); r "b2" (Some "B")].

Theorem C91_two_blocks_refuted : exists td t tt st s s2,
  stations_apart st /\ annotated st tt /\ runs td t tt /\
  get_blocks_b2win_station4train_deprecable td st t s s2 = Ok (["m"], Some false) /\
  get_blocks_b2win_station4train tt s s2 = Ok (["m"; "b1"], Some false).
Proof.
  exists [(1%Z, ([], two_blocks))], 1%Z, two_blocks, [("A", ["a"]); ("B", ["b1"; "b2"])], "A", "B".
  assert (IN : forall b s, in_station [("A", ["a"]); ("B", ["b1"; "b2"])] b s <->
     (s = "A" /\ b = "a") \/ (s = "B" /\ (b = "b1" \/ b = "b2"))).
  { intros b s. unfold in_station. split.
    - intros (bs & [[= <- <-]|[[= <- <-]|[]]] & I); cbn in I; intuition auto.
    - intros [(-> & ->)|(-> & [->| ->])]; eexists; (split; [cbn; auto|cbn; auto]). }
  split; [split|split; [|split; [|split; reflexivity]]].
  - repeat constructor; cbn; intuition discriminate.
  - intros b s s' I I'. apply IN in I, I'. intuition (subst; congruence).
  - intros r s I. rewrite IN. cbn in I.
    destruct I as [<-|[<-|[<-|[<-|[]]]]]; cbn; split; intros H; intuition (try congruence; try discriminate).
  - exists []. reflexivity.
Qed.
Print Assumptions C91_two_blocks_refuted.

(** The speed of a block is that of its row: for a block the train uses once the speed written
    there; IndexError exactly for blocks the train does not use. *)
Theorem C91_speed : forall tt b,
  (forall u r v, tt = u ++ r :: v -> r_block r = b -> (forall x, In x u -> r_block x <> b) ->
     get_block_speed tt b = Ok (r_speed r)) /\
  (get_block_speed tt b = Err IndexError <-> ~ uses tt b).
Proof.
  intros tt b. unfold get_block_speed. split.
  - intros u r v -> E N. rewrite filter_app. cbn [filter].
    replace (filter (fun r => eqb (r_block r) b) u) with (@nil row).
    + rewrite (proj2 (eqb_true _ _) E). reflexivity.
    + symmetry. induction u as [|x u IH]; [reflexivity|]. cbn [filter].
      destruct (eqb (r_block x) b) eqn:Q.
      * apply (proj1 (eqb_true _ _)) in Q. exfalso. apply (N x); [left; reflexivity|exact Q].
      * apply IH. intros y Y. apply N. right. exact Y.
  - destruct (filter _ tt) as [|r l] eqn:F.
    + split; [|reflexivity]. intros _ (r & I & E).
      assert (X : In r (filter (fun r => eqb (r_block r) b) tt)) by (apply filter_In; split; [exact I|exact (proj2 (eqb_true _ _) E)]).
      rewrite F in X. destruct X.
    + split; [discriminate|]. intros N. exfalso. apply N. exists r.
      assert (X : In r (filter (fun r => eqb (r_block r) b) tt)) by (rewrite F; left; reflexivity).
      apply filter_In in X as [I E]. apply (proj1 (eqb_true _ _)) in E. auto.
Qed.
Print Assumptions C91_speed.

(** A train through three stations, with two blocks before the first and two between: the blocks
    between the outer stations (with the station on the way), the way back, and a station the train
    does not come to. *)
Definition old_st : station_blocks := [("A", ["a"; "a2"]); ("B", ["b"]); ("C", ["c"]); ("D", ["d"])].
Definition old_tt : table :=
  let r b s := MkRow b None None None None None None None None s in
  [r "x" None; r "a" (Some "A"); r "m" None; r "b" (Some "B"); r "n" None; r "c" (Some "C")].

Example C91_case :
  stations_apart old_st /\ annotated old_st old_tt /\ visits_once old_tt /\ runs [(7%Z, ([], old_tt))] 7 old_tt /\
  get_blocks_b2win_station4train_deprecable [(7%Z, ([], old_tt))] old_st 7 "A" "C" = Ok (["m"; "b"; "n"], Some false) /\
  get_blocks_b2win_station4train_deprecable [(7%Z, ([], old_tt))] old_st 7 "C" "A" = Ok ([], Some true) /\
  get_blocks_b2win_station4train_deprecable [(7%Z, ([], old_tt))] old_st 7 "A" "D" = Ok ([], None).
Proof.
  assert (IN : forall b s, in_station old_st b s <->
     (s = "A" /\ (b = "a" \/ b = "a2")) \/ (s = "B" /\ b = "b") \/ (s = "C" /\ b = "c") \/ (s = "D" /\ b = "d")).
  { intros b s. unfold in_station, old_st. split.
    - intros (bs & [[= <- <-]|[[= <- <-]|[[= <- <-]|[[= <- <-]|[]]]]] & I); cbn in I; intuition auto.
    - intros [(-> & [->| ->])|[(-> & ->)|[(-> & ->)|(-> & ->)]]]; eexists; (split; [cbn; auto|cbn; auto]). }
  split; [split|split; [|split; [|split; [|repeat split; reflexivity]]]].
  - repeat constructor; cbn; intuition discriminate.
  - intros b s s' I I'. apply IN in I, I'. intuition (subst; congruence).
  - intros r s I. rewrite IN. cbn in I.
    destruct I as [<-|[<-|[<-|[<-|[<-|[<-|[]]]]]]]; cbn; split; intros H; intuition (try congruence; try discriminate).
  - apply visits_once_nodup. cbn. repeat constructor; cbn; intuition discriminate.
  - exists []. reflexivity.
Qed.
