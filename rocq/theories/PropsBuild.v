(** * PropsBuild: well-formed input always builds (C17) *)

From Coq Require Import List String Ascii ZArith QArith Bool Arith Lia Lqa.
From Verif Require Import Base Pulp Helpers LinearSolver BaseFacts Spec SpecNames SpecTimes SpecBuild
  SpecFacts HelperFacts Names Builds BuildNames Check Examples PropsVars.
Import ListNotations.
Open Scope string_scope.
Open Scope list_scope.

(** C17.  [well_formed] (SpecBuild.v) is a condition on the input alone; it is decided by
    [well_formedb] below. *)
Theorem C17_builds : forall ts tt d_max cat,
  well_formed ts tt d_max -> exists p, create_linear_problem ts tt d_max cat = Ok p.
Proof. intros. apply builds. assumption. Qed.
Print Assumptions C17_builds.

(** ** Deciding well-formedness *)

Definition has {V : Type} (k : string) (d : dict string V) : bool := match dget k d with Some _ => true | None => false end.

Lemma has_ok {V} k (d : dict string V) : has k d = true -> exists v, dget k d = Some v.
Proof. unfold has. destruct (dget k d); [eauto|discriminate]. Qed.

Fixpoint nodupb {A : Type} {E : EqDec A} (l : list A) : bool :=
  match l with [] => true | a :: r => negb (lmem a r) && nodupb r end.

Lemma nodupb_ok {A} {E : EqDec A} (l : list A) : nodupb l = true -> NoDup l.
Proof.
  induction l as [|a l IH]; cbn; [constructor|]. rewrite andb_true_iff, negb_true_iff. intros [H1 H2].
  constructor; [apply lmem_false; exact H1|auto].
Qed.

Definition adjacent (path : list pv) : list (pv * pv) := combine path (tl path).

Lemma adjacent_in l1 : forall a b l2, In (a, b) (adjacent (l1 ++ a :: b :: l2)).
Proof.
  induction l1 as [|x l1 IH]; intros a b l2; [cbn; auto|].
  destruct l1 as [|z l1]; [right; cbn; auto|]. right. exact (IH a b l2).
Qed.

Lemma before_adjacent ts j sp s : comes_before ts j sp s ->
  exists path, In (j, path) (ts_Paths ts) /\ dget j (ts_Paths ts) = Some path /\ In (sp, s) (adjacent path).
Proof.
  intros (path & l1 & l2 & H & E & _). exists path. split; [apply dget_in; exact H|]. split; [exact H|].
  rewrite E. apply adjacent_in.
Qed.

Section Decide.
  Variables (ts : train_sets) (tt : timetable) (d_max : Q).

  Definition path_of (j : pv) : list pv := match dget j (ts_Paths ts) with Some p => p | None => [] end.
  Definition on_pathb (j s : pv) : bool := lmem s (path_of j).
  Definition skippedb (j s : pv) : bool :=
    match ts_skip ts with
    | Some sk => match dget j sk with Some t => eqb t s | None => false end
    | None => false
    end.
  Definition continuesb (j s : pv) : bool :=
    match dget s (ts_Jround ts) with Some l => lmem j (map fst l) | None => false end.
  Definition decidedb (j s : pv) : bool :=
    lmem j (ts_J ts) && on_pathb j s && negb (skippedb j s) && negb (continuesb j s).
  Definition endsb (j s : pv) : bool :=
    match rev (path_of j) with x :: _ => eqb x s | [] => false end.
  Definition startsb (j s : pv) : bool :=
    match path_of j with x :: _ => eqb x s | [] => false end.
  Definition beforeb (j sp s : pv) : bool :=
    match dget j (ts_Paths ts) with
    | Some path => match previous_station path s with
                   | Ok u => negb (is_none u) && eqb u sp
                   | Err _ => false
                   end
    | None => false
    end.
  Definition listedb (l : list pv) (j k : pv) : bool := lmem (j, k) (combinations2 l).

  Lemma path_of_in j s : In s (path_of j) -> on_path ts j s.
  Proof. unfold path_of. destruct (dget j (ts_Paths ts)) as [p|] eqn:E; [|intros []]. exists p. auto. Qed.

  Lemma on_path_of j s : on_path ts j s -> In s (path_of j).
  Proof. intros (p & H & I). unfold path_of. rewrite H. exact I. Qed.

  Lemma decidedb_ok j s : decidedb j s = true -> decided ts j s.
  Proof.
    unfold decidedb, on_pathb. rewrite !andb_true_iff, !negb_true_iff. intros [[[H1 H2] H3] H4].
    split; [apply lmem_true; exact H1|]. split.
    - apply lmem_true in H2. apply path_of_in in H2. exact H2.
    - split.
      + intros (sk & E & D). unfold skippedb in H3. rewrite E, D, eqb_refl in H3. discriminate.
      + intros (jn & l1 & l2 & H & _). unfold continuesb in H4. rewrite H in H4. apply lmem_false in H4.
        apply H4. rewrite map_app. apply in_app_iff. cbn. auto.
  Qed.

  Lemma decidedb_complete j s : decided ts j s -> decidedb j s = true.
  Proof.
    intros (H1 & H2 & H3 & H4). unfold decidedb, on_pathb. rewrite !andb_true_iff, !negb_true_iff. repeat split.
    - apply lmem_true; exact H1.
    - apply lmem_true. apply on_path_of. exact H2.
    - unfold skippedb. destruct (ts_skip ts) as [sk|] eqn:E; [|reflexivity]. destruct (dget j sk) eqn:D; [|reflexivity].
      destruct (eqb p s) eqn:Ep; [|reflexivity]. apply eqb_eq in Ep. subst p. exfalso. apply H3. exists sk. auto.
    - unfold continuesb. destruct (dget s (ts_Jround ts)) as [l|] eqn:E; [|reflexivity].
      destruct (lmem j (map fst l)) eqn:M; [|reflexivity]. exfalso. apply H4. apply lmem_true in M.
      assert (G : forall l : list (pv * pv), In j (map fst l) -> exists jn l1 l2, l = l1 ++ (j, jn) :: l2 /\ ~ In j (map fst l1)).
      { clear. induction l as [|[a b] l IH]; cbn; [tauto|]. intros H. destruct (eq_dec a j) as [->|N].
        - exists b, [], l. cbn. auto.
        - destruct H as [H|H]; [congruence|]. destruct (IH H) as (jn & l1 & l2 & -> & NI).
          exists jn, ((a, b) :: l1), l2. split; [reflexivity|]. cbn. tauto. }
      destruct (G l M) as (jn & l1 & l2 & -> & NI). exists jn, l1, l2. auto.
  Qed.

  Lemma endsb_ok j s : endsb j s = true -> ends_here ts j s.
  Proof.
    unfold endsb, path_of. destruct (dget j (ts_Paths ts)) as [p|] eqn:E; [|discriminate].
    destruct (rev p) as [|x r] eqn:Er; [discriminate|]. intros H. apply eqb_eq in H. subst x.
    exists (rev r). rewrite E. f_equal. rewrite <- (rev_involutive p), Er. reflexivity.
  Qed.

  Lemma startsb_ok j s : startsb j s = true -> starts_at ts j s.
  Proof.
    unfold startsb, path_of. destruct (dget j (ts_Paths ts)) as [[|x p]|] eqn:E; try discriminate.
    intros H. apply eqb_eq in H. subst x. exists p. exact E.
  Qed.

  Lemma beforeb_ok j sp s : reserved_free ts -> beforeb j sp s = true -> comes_before ts j sp s.
  Proof.
    intros RF. unfold beforeb. destruct (dget j (ts_Paths ts)) as [p|] eqn:E; [|discriminate].
    destruct (previous_station p s) as [u|] eqn:Eu; [|discriminate]. rewrite andb_true_iff, negb_true_iff.
    intros [N H]. apply eqb_eq in H. subst u.
    destruct (prev_cases ts RF j p s sp E Eu) as [[-> _]|[_ C]]; [discriminate|exact C].
  Qed.

  Lemma listedb_ok l j k : listedb l j k = true -> listed l j k.
  Proof. intros H. apply lmem_true in H. apply listed_combinations. exact H. Qed.

  Definition proper_groupsb (groups : list (list pv)) : bool :=
    forallb (fun js => forallb (fun p => listedb (ts_J ts) (fst p) (snd p)) (combinations2 js)) groups &&
    nodupb (flat_map pairs_in groups).

  Lemma proper_groupsb_ok groups : proper_groupsb groups = true -> proper_groups ts groups.
  Proof.
    unfold proper_groupsb. rewrite andb_true_iff, forallb_forall. intros [H1 H2]. split; [|apply nodupb_ok; exact H2].
    intros js j k I L. specialize (H1 _ I). rewrite forallb_forall in H1. apply listed_combinations in L.
    apply listedb_ok. exact (H1 _ L).
  Qed.

  Definition placeb (s j place : pv) : bool :=
    (eqb place (PStr "out") && decidedb j s) ||
    (eqb place (PStr "in") && existsb (fun p => eqb (snd p) s && beforeb j (fst p) s) (adjacent (path_of j))).

  Lemma placeb_ok s j place : reserved_free ts -> placeb s j place = true -> proper_place ts s j place.
  Proof.
    intros RF. unfold placeb. rewrite orb_true_iff, !andb_true_iff. intros [[H1 H2]|[H1 H2]]; apply eqb_eq in H1.
    - left. split; [exact H1|apply decidedb_ok; exact H2].
    - right. split; [exact H1|]. apply existsb_exists in H2 as ([sp s'] & _ & H). apply andb_true_iff in H as [_ H].
      exists sp. apply beforeb_ok; auto.
  Qed.

  Definition is_text (s : pv) : bool := match s with PStr _ => true | _ => false end.

  Lemma is_text_ok s : is_text s = true -> exists t, s = PStr t.
  Proof. destruct s; try discriminate. eauto. Qed.

  Definition switch_entryb (s : pv) (pair : dict pv pv) : bool :=
    match pair with
    | [(j, a); (k, b)] =>
        listedb (ts_J ts) j k && placeb s j a && placeb s k b &&
        (negb (eqb a (PStr "in") && eqb b (PStr "in")) ||
         match ts_Jd ts with
         | [] => true
         | _ => forallb (fun p => negb (eqb (snd p) s && lmem p (adjacent (path_of k))) ||
                          match dget (fst p) (ts_Jd ts) with
                          | Some inner => match dget s inner with Some _ => true | None => false end
                          | None => false
                          end) (adjacent (path_of j))
         end)
    | _ => false
    end.

  Definition well_formedb : bool :=
    reserved_freeb ts && plain_namesb ts &&
    forallb (fun j => forallb (fun s => negb (eqb (str j) (str s))) (mentioned_stations ts)) (mentioned_trains ts) &&
    forallb (fun s => negb (eqb (str s) "p")) (mentioned_stations ts) &&
    (nodupb (dkeys (ts_Jd ts)) && forallb (fun e => nodupb (dkeys (snd e))) (ts_Jd ts) &&
     nodupb (dkeys (ts_Josingle ts)) && nodupb (dkeys (ts_Jround ts)) && nodupb (dkeys (ts_Jtrack ts)) &&
     nodupb (dkeys (ts_Jswitch ts)) && nodupb (ts_J ts)) &&
    forallb (fun j => lmem j (ts_J ts)) (mentioned_trains ts) &&
    forallb (fun j => match dget j (ts_Paths ts) with Some p => nodupb p | None => false end) (ts_J ts) &&
    forallb (fun e => match path_of (fst e) with s :: _ => has (joined [fst e; s]) (tt_init tt) | [] => true end)
      (ts_Paths ts) &&
    forallb (fun e => forallb (fun p =>
        has (joined [fst e; fst p; snd p]) (tt_pass tt) &&
        (negb (decidedb (fst e) (snd p)) || has (joined [fst e; snd p]) (tt_stop tt)))
      (adjacent (path_of (fst e)))) (ts_Paths ts) &&
    match tt_res tt with Some _ => true | None => false end &&
    match ts_skip ts with
    | None => true
    | Some sk => forallb (fun e => is_text (snd e) &&
          (negb (on_pathb (fst e) (snd e)) || endsb (fst e) (snd e))) sk &&
        forallb (fun e => is_text (fst e)) (ts_Jtrack ts)
    end &&
    forallb (fun e => forallb (fun f => proper_groupsb (snd f) &&
        forallb (fun js => forallb (fun p =>
          decidedb (fst p) (fst e) && decidedb (snd p) (fst e) &&
          has (joined [fst p; snd p; fst e; fst f]) (tt_headway tt) &&
          has (joined [snd p; fst p; fst e; fst f]) (tt_headway tt)) (combinations2 js)) (snd f)) (snd e)) (ts_Jd ts) &&
    forallb (fun e => nodupb (snd e) &&
        forallb (fun p => beforeb (fst p) (fst (fst e)) (snd (fst e)) && beforeb (snd p) (snd (fst e)) (fst (fst e)) &&
          forallb (fun e' => negb (eqb (fst e') (snd (fst e), fst (fst e)) && lmem (snd p, fst p) (snd e')))
            (ts_Josingle ts)) (snd e)) (ts_Josingle ts) &&
    forallb (fun e => nodupb (snd e) &&
        forallb (fun p => endsb (fst p) (fst e) &&
          existsb (fun q => beforeb (fst p) (fst q) (fst e)) (adjacent (path_of (fst p))) &&
          startsb (snd p) (fst e) && decidedb (snd p) (fst e) && has (joined [snd p; fst e]) (tt_prep tt)) (snd e))
      (ts_Jround ts) &&
    forallb (fun e => proper_groupsb (snd e) &&
        forallb (fun js => forallb (fun j => on_pathb j (fst e)) js &&
          match dget (fst e) (ts_Jround ts) with
          | Some l => forallb (fun p => negb (lmem (fst p) js) || lmem (snd p) js) l
          | None => true
          end) (snd e)) (ts_Jtrack ts) &&
    forallb (fun e => nodupb (snd e) && forallb (switch_entryb (fst e)) (snd e)) (ts_Jswitch ts) &&
    forallb (fun j => forallb (fun s =>
        match dget (joined [j; s]) (tt_weights tt) with
        | Some w => Qeq_bool w 0 || decidedb j s
        | None => true
        end) (path_of j)) (ts_J ts) &&
    negb (Qeq_bool d_max 0).

  Lemma well_formedb_ok : well_formedb = true -> well_formed ts tt d_max.
  Proof.
    unfold well_formedb. rewrite !andb_true_iff.
    intros [[[[[[[[[[[[[[[[[W1 W2] W3] W4] [[[[[[K1 K2] K3] K4] K5] K6] K7]] W5] W6] W7] W8] W9] W10] W11] W12] W13] W14] W15] W16] W17].
    assert (RF := reserved_freeb_ok _ W1).
    rewrite forallb_forall in W3, W4, W5, W6, W7, W8, W11, W12, W13, W14, W15, W16, K2.
    constructor.
    - exact RF.
    - apply plain_namesb_ok. exact W2.
    - intros j s Hj Hs E. specialize (W3 _ Hj). rewrite forallb_forall in W3. specialize (W3 _ Hs).
      rewrite E, eqb_refl in W3. discriminate.
    - intros s Hs E. specialize (W4 _ Hs). rewrite E, eqb_refl in W4. discriminate.
    - apply nodupb_ok. exact K1.
    - intros s inner I. apply nodupb_ok. exact (K2 _ I).
    - apply nodupb_ok. exact K3.
    - apply nodupb_ok. exact K4.
    - apply nodupb_ok. exact K5.
    - apply nodupb_ok. exact K6.
    - apply nodupb_ok. exact K7.
    - intros j Hj. apply lmem_true. exact (W5 _ Hj).
    - intros j Hj. specialize (W6 _ Hj). destruct (dget j (ts_Paths ts)) as [p|]; [|discriminate].
      exists p. split; [reflexivity|apply nodupb_ok; exact W6].
    - intros j s (l & H). specialize (W7 _ (dget_in _ _ _ H)). cbn [fst] in W7. unfold path_of in W7. rewrite H in W7.
      apply has_ok in W7. exact W7.
    - intros j sp s H. destruct (before_adjacent _ _ _ _ H) as (p & I & G & A). specialize (W8 _ I).
      rewrite forallb_forall in W8. cbn [fst] in W8. unfold path_of in W8. rewrite G in W8. specialize (W8 _ A).
      apply andb_true_iff in W8 as [W8 _]. apply has_ok in W8. exact W8.
    - intros j sp s H HD. destruct (before_adjacent _ _ _ _ H) as (p & I & G & A). specialize (W8 _ I).
      rewrite forallb_forall in W8. cbn [fst] in W8. unfold path_of in W8. rewrite G in W8. specialize (W8 _ A).
      apply andb_true_iff in W8 as [_ W8]. cbn [snd] in W8. rewrite (decidedb_complete _ _ HD) in W8.
      apply has_ok in W8. exact W8.
    - unfold reservation. destruct (tt_res tt); [eauto|discriminate].
    - intros j s (sk & E & D) O. rewrite E in W10. apply andb_true_iff in W10 as [W10 _]. rewrite forallb_forall in W10.
      specialize (W10 _ (dget_in _ _ _ D)). cbn [fst snd] in W10. apply andb_true_iff in W10 as [_ W10].
      unfold on_pathb in W10. rewrite (proj2 (lmem_true _ _) (on_path_of _ _ O)) in W10. apply endsb_ok. exact W10.
    - intros j s (sk & E & D). rewrite E in W10. apply andb_true_iff in W10 as [W10 _]. rewrite forallb_forall in W10.
      specialize (W10 _ (dget_in _ _ _ D)). apply andb_true_iff in W10 as [W10 _]. apply is_text_ok. exact W10.
    - intros s groups N I. destruct (ts_skip ts) as [sk|]; [|congruence]. apply andb_true_iff in W10 as [_ W10].
      rewrite forallb_forall in W10. apply is_text_ok. exact (W10 _ I).
    - intros s inner sp groups I I'. specialize (W11 _ I). rewrite forallb_forall in W11. specialize (W11 _ I').
      cbn [fst snd] in W11. apply andb_true_iff in W11 as [P H]. split; [apply proper_groupsb_ok; exact P|].
      intros js j k Ij L. rewrite forallb_forall in H. specialize (H _ Ij). rewrite forallb_forall in H.
      apply listed_combinations in L. specialize (H _ L). cbn [fst snd] in H. rewrite !andb_true_iff in H.
      destruct H as [[[H1 H2] H3] H4]. split; [apply decidedb_ok; exact H1|]. split; [apply decidedb_ok; exact H2|].
      split; apply has_ok; assumption.
    - intros s sp l I. specialize (W12 _ I). cbn [fst snd] in W12. apply andb_true_iff in W12 as [N H].
      split; [apply nodupb_ok; exact N|]. intros j k P. rewrite forallb_forall in H. specialize (H _ P).
      cbn [fst snd] in H. rewrite !andb_true_iff in H. destruct H as [[H1 H2] H3].
      split; [apply beforeb_ok; auto|]. split; [apply beforeb_ok; auto|]. intros l' I' P'.
      rewrite forallb_forall in H3. specialize (H3 _ I'). cbn [fst snd] in H3. rewrite eqb_refl in H3.
      rewrite (proj2 (lmem_true _ _) P') in H3. discriminate.
    - intros s l I. specialize (W13 _ I). cbn [fst snd] in W13. apply andb_true_iff in W13 as [N H].
      split; [apply nodupb_ok; exact N|]. intros j k P. rewrite forallb_forall in H. specialize (H _ P).
      cbn [fst snd] in H. rewrite !andb_true_iff in H. destruct H as [[[[H1 H2] H3] H4] H5].
      split; [apply endsb_ok; exact H1|]. split; [|split; [apply startsb_ok; exact H3|split; [apply decidedb_ok; exact H4|apply has_ok; exact H5]]].
      apply existsb_exists in H2 as (q & _ & H2). exists (fst q). apply beforeb_ok; auto.
    - intros s groups I. specialize (W14 _ I). cbn [fst snd] in W14. apply andb_true_iff in W14 as [P H].
      rewrite forallb_forall in H. split; [apply proper_groupsb_ok; exact P|]. split.
      + intros js j Ij Ij'. specialize (H _ Ij). apply andb_true_iff in H as [H _]. rewrite forallb_forall in H.
        apply path_of_in. apply lmem_true. exact (H _ Ij').
      + intros js j jn Ij Ij' (l1 & l2 & G & _). specialize (H _ Ij). apply andb_true_iff in H as [_ H].
        rewrite G in H. rewrite forallb_forall in H. specialize (H (j, jn)). cbn [fst snd] in H.
        rewrite (proj2 (lmem_true _ _) Ij') in H. apply lmem_true. apply H. apply in_app_iff. cbn. auto.
    - intros s l I. specialize (W15 _ I). cbn [fst snd] in W15. apply andb_true_iff in W15 as [N H].
      split; [apply nodupb_ok; exact N|]. intros pair P. rewrite forallb_forall in H. specialize (H _ P).
      unfold switch_entryb in H. destruct pair as [|[j a] [|[k b] [|]]]; try discriminate.
      rewrite !andb_true_iff in H. destruct H as [[[H1 H2] H3] H4]. exists j, a, k, b.
      split; [reflexivity|]. split; [apply listedb_ok; exact H1|]. split; [apply placeb_ok; auto|]. split; [apply placeb_ok; auto|].
      intros -> -> sp C1 C2. rewrite !eqb_refl in H4. cbn [andb negb orb] in H4.
      destruct (before_adjacent _ _ _ _ C1) as (p1 & _ & G1 & A1). destruct (before_adjacent _ _ _ _ C2) as (p2 & _ & G2 & A2).
      unfold path_of in H4. rewrite G1, G2 in H4.
      destruct (ts_Jd ts) as [|kv r] eqn:EJ; [left; reflexivity|right]. rewrite forallb_forall in H4.
      specialize (H4 _ A1). cbn [fst snd] in H4. rewrite eqb_refl, (proj2 (lmem_true _ _) A2) in H4. cbn [andb negb orb] in H4.
      destruct (dget sp (kv :: r)) as [inner|]; [|discriminate]. destruct (dget s inner) as [g|] eqn:Eg; [|discriminate].
      exists inner, g. auto.
    - intros j s w Hj O Hw Nw. specialize (W16 _ Hj). rewrite forallb_forall in W16. specialize (W16 _ (on_path_of _ _ O)).
      rewrite Hw in W16. apply orb_true_iff in W16 as [W|W]; [apply Qeq_bool_iff in W; contradiction|apply decidedb_ok; exact W].
    - intros E. apply negb_true_iff in W17. apply Qeq_bool_neq in W17. contradiction.
  Qed.
End Decide.

(** The inputs of /repo's tests are well-formed. *)
Example five_well_formed : well_formed five_ts five_tt 10.
Proof. apply well_formedb_ok. vm_compute. reflexivity. Qed.
Example circ_well_formed : well_formed circ_ts circ_tt 20.
Proof. apply well_formedb_ok. vm_compute. reflexivity. Qed.
Example C17_case : exists p, create_linear_problem five_ts five_tt 10 Continuous = Ok p.
Proof. apply C17_builds. apply five_well_formed. Qed.

(** ** The conditions are needed

    Two trains run from [first] to S on one line and share a track at S; [track] is the group listed
    for that track.  With the station called "P" and the trains in the order of [J] the input is
    well-formed. *)
Definition two_ts (first : pv) (track : list (list pv)) (round : dict pv (list (pv * pv))) : train_sets :=
  MkTS None [(I 1, [first; PStr "S"; PStr "X"]); (I 2, [first; PStr "S"; PStr "X"])] [I 1; I 2]
    [(first, [(PStr "S", [[I 1; I 2]])]); (PStr "S", [(PStr "X", [[I 1; I 2]])])] [] round
    [(PStr "S", track)] [] None.

Definition two_tt (first : string) (weights : dict string Q) : timetable := MkTT
  [("1_" ++ first ++ "_S", 4); ("2_" ++ first ++ "_S", 4); ("1_S_X", 4); ("2_S_X", 4)]%string
  [("1_2_" ++ first ++ "_S", 2); ("2_1_" ++ first ++ "_S", 2); ("1_2_S_X", 2); ("2_1_S_X", 2)]%string
  [("1_S", 1); ("2_S", 1); ("1_X", 1); ("2_X", 1)] [] (Some 1) []
  [("1_" ++ first, 0); ("2_" ++ first, 3)]%string weights.

Example two_well_formed :
  well_formed (two_ts (PStr "P") [[I 1; I 2]] []) (two_tt "P" [("1_S", 1)]) 10.
Proof. apply well_formedb_ok. vm_compute. reflexivity. Qed.

(** A station called "p": two different constraints get the same name. *)
Theorem C17_station_p_refuted :
  create_linear_problem (two_ts (PStr "p") [[I 1; I 2]] []) (two_tt "p" [("1_S", 1)]) 10 Integer = Err PulpError.
Proof. vm_compute. reflexivity. Qed.
Print Assumptions C17_station_p_refuted.

(** A track group listed against the order of the trains on the line: KeyError. *)
Theorem C17_order_refuted :
  create_linear_problem (two_ts (PStr "P") [[I 2; I 1]] []) (two_tt "P" [("1_S", 1)]) 10 Integer = Err KeyError.
Proof. vm_compute. reflexivity. Qed.
Print Assumptions C17_order_refuted.

(** Two trains listed for two tracks of a station: duplicate constraint names. *)
Theorem C17_twice_refuted :
  create_linear_problem (two_ts (PStr "P") [[I 1; I 2]; [I 1; I 2]] []) (two_tt "P" [("1_S", 1)]) 10 Integer
    = Err PulpError.
Proof. vm_compute. reflexivity. Qed.
Print Assumptions C17_twice_refuted.

(** A maximal delay of 0 cannot be used with weights. *)
Theorem C17_zero_refuted :
  create_linear_problem (two_ts (PStr "P") [[I 1; I 2]] []) (two_tt "P" [("1_S", 1)]) 0 Integer
    = Err ZeroDivisionError.
Proof. vm_compute. reflexivity. Qed.
Print Assumptions C17_zero_refuted.

(** Trains sharing a station track at a turnaround without the continuing train in the group:
    train 1 ends at B and leaves as 3; the track at B lists 1 and 2 only. *)
Definition turn_ts (track : list (list pv)) : train_sets := MkTS None
  [(I 1, [A; B]); (I 2, [A; B]); (I 3, [B; A])] [I 1; I 2; I 3] [(A, [(B, [[I 1; I 2]])])] []
  [(B, [(I 1, I 3)])] [(B, track)] [] None.
Definition turn_tt : timetable := MkTT
  [("1_A_B", 4); ("2_A_B", 4); ("3_B_A", 4)] [("1_2_A_B", 2); ("2_1_A_B", 2)]
  [("1_B", 1); ("2_B", 1); ("3_A", 1)] [("3_B", 5)] (Some 1) []
  [("1_A", 0); ("2_A", 3); ("3_B", 9)] [("1_A", 1)].
Example turn_well_formed : well_formed (turn_ts [[I 1; I 2; I 3]]) turn_tt 10.
Proof. apply well_formedb_ok. vm_compute. reflexivity. Qed.
Theorem C17_continuation_refuted :
  create_linear_problem (turn_ts [[I 1; I 2]]) turn_tt 10 Integer = Err KeyError.
Proof. vm_compute. reflexivity. Qed.
Print Assumptions C17_continuation_refuted.
