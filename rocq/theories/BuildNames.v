(** * BuildNames: on well-formed input every constraint gets a name of its own (C17) *)

From Coq Require Import List String Ascii ZArith QArith Bool Arith Lia Lqa.
From Verif Require Import Base Pulp Helpers LinearSolver BaseFacts Spec SpecNames SpecTimes SpecBuild
  TreeFacts OrderVars Emit DelayVars Shapes Origin SpecFacts HelperFacts Rules Names Builds.
Import ListNotations.
Open Scope string_scope.
Open Scope list_scope.

(** ** Lists *)

Lemma nodup_flat_map {A B} (f : A -> list B) l :
  NoDup l -> (forall x, In x l -> NoDup (f x)) ->
  (forall x x' z, In x l -> In x' l -> In z (f x) -> In z (f x') -> x = x') ->
  NoDup (flat_map f l).
Proof.
  induction l as [|a l IH]; intros ND H1 H2; cbn [flat_map]; [constructor|]. inversion ND; subst.
  apply nodup_app; [apply H1; left; reflexivity| |].
  - apply IH; [assumption|intros; apply H1; right; assumption|].
    intros x x' z I I'. apply H2; right; assumption.
  - intros z I I'. apply in_flat_map in I' as (x & Ix & Iz).
    assert (a = x) by (eapply H2; [left; reflexivity|right; exact Ix|exact I|exact Iz]). congruence.
Qed.

Lemma map_flat_map {A B C} (g : B -> C) (f : A -> list B) l :
  map g (flat_map f l) = flat_map (fun x => map g (f x)) l.
Proof. induction l as [|a l IH]; cbn [flat_map map]; [reflexivity|]. rewrite map_app, IH. reflexivity. Qed.

Lemma flat_map_twice {A B C} (g : B -> list C) (f : A -> list B) l :
  flat_map g (flat_map f l) = flat_map (fun x => flat_map g (f x)) l.
Proof. induction l as [|a l IH]; cbn [flat_map]; [reflexivity|]. rewrite flat_map_app, IH. reflexivity. Qed.

Lemma flat_map_same {A B} (f g : A -> list B) l :
  (forall x, In x l -> f x = g x) -> flat_map f l = flat_map g l.
Proof.
  induction l as [|a l IH]; intros H; cbn [flat_map]; [reflexivity|]. rewrite H, IH; cbn; auto.
  intros; apply H; cbn; auto.
Qed.

Lemma nodup_entries {K V} (d : list (K * V)) : NoDup (map fst d) -> NoDup d.
Proof. apply NoDup_map_inv. Qed.

Lemma same_entry {K V} (d : list (K * V)) k v v' :
  NoDup (dkeys d) -> In (k, v) d -> In (k, v') d -> v = v'.
Proof.
  intros ND I I'. induction d as [|[a b] d IH]; [destruct I|]. inversion ND; subst.
  destruct I as [I|I], I' as [I'|I']; auto.
  - congruence.
  - inversion I; subst. exfalso. apply H1. apply in_map_iff. exists (k, v'). auto.
  - inversion I'; subst. exfalso. apply H1. apply in_map_iff. exists (k, v). auto.
Qed.

Lemma pairs_combinations {A} (l : list A) : pairs_in l = combinations2 l.
Proof. induction l as [|a l IH]; cbn; [reflexivity|]. rewrite IH. reflexivity. Qed.

(** ** Names as words joined by underscores *)

Lemma join_plain ws : Forall (fun w => all_chars plain_char w = true) ws ->
  all_chars plain_or_us (join_us ws) = true.
Proof.
  assert (G : forall a b, all_chars plain_or_us (a ++ b)%string = all_chars plain_or_us a && all_chars plain_or_us b).
  { induction a as [|c a IH]; intros b; cbn; [reflexivity|]. rewrite IH, andb_assoc. reflexivity. }
  assert (P : forall w, all_chars plain_char w = true -> all_chars plain_or_us w = true).
  { induction w as [|c w IH]; cbn; [reflexivity|]. rewrite !andb_true_iff. intros [H1 H2].
    split; [apply plain_plus; exact H1|auto]. }
  induction ws as [|w ws IH]; intros H; [reflexivity|]. inversion H; subst.
  destruct ws as [|w' ws]; [apply P; assumption|].
  change (join_us (w :: w' :: ws)) with (w ++ "_" ++ join_us (w' :: ws))%string.
  rewrite !G, P, IH; auto.
Qed.

Lemma join_inj ws : forall ws', ws <> [] -> ws' <> [] ->
  Forall (fun w => all_chars plain_char w = true) ws ->
  Forall (fun w => all_chars plain_char w = true) ws' ->
  join_us ws = join_us ws' -> ws = ws'.
Proof.
  induction ws as [|w ws IH]; intros [|w' ws'] N N' H H' E; try congruence. inversion H; inversion H'; subst.
  destruct ws as [|v ws], ws' as [|v' ws'].
  - cbn in E. congruence.
  - exfalso. change (w = (w' ++ "_" ++ join_us (v' :: ws'))%string) in E. symmetry in E. eapply no_us_tail; [|exact E]; assumption.
  - exfalso. change ((w ++ "_" ++ join_us (v :: ws))%string = w') in E. eapply no_us_tail; [|exact E]; assumption.
  - change ((w ++ "_" ++ join_us (v :: ws))%string = (w' ++ "_" ++ join_us (v' :: ws'))%string) in E.
    apply split_us in E as [-> E]; auto. f_equal. apply IH; auto; discriminate.
Qed.

Lemma cname_fixed s : all_chars plain_or_us s = true -> constraint_name s = s.
Proof.
  unfold constraint_name. induction s as [|c s IH]; cbn [all_chars smap]; [reflexivity|]. intros E.
  apply andb_true_iff in E as [E1 E2]. rewrite (IH E2). f_equal.
  destruct c as [[] [] [] [] [] [] [] []]; try reflexivity; vm_compute in E1; discriminate.
Qed.

(** ** The calls, in the order they are made *)

Section Calls.
  Variable ts : train_sets.

  Definition skip_at (s j : pv) : bool := match track_skip j s ts with Ok b => b | Err _ => true end.

  Definition span_calls : list call :=
    flat_map (fun e => flat_map (fun f =>
      flat_map (fun p => [KMs (fst e) (fst f) (fst p) (snd p); KMs (fst e) (fst f) (snd p) (fst p)])
        (flat_map pairs_in (snd f))) (snd e)) (ts_Jd ts).

  Definition stay_calls : list call := flat_map (fun j => map (KStay j) (stations_of ts j)) (ts_J ts).

  Definition line_calls : list call :=
    flat_map (fun e => flat_map (fun p =>
      if not_the_same_rolling_stock (fst p) (snd p) ts then
        [KSl (fst (fst e)) (snd (fst e)) (fst p) (snd p); KSl (snd (fst e)) (fst (fst e)) (snd p) (fst p)]
      else []) (snd e)) (ts_Josingle ts).

  Definition track_pair_calls (s j k : pv) : list call :=
    if not_the_same_rolling_stock j k ts then
      (if skip_at s k then [] else [KKto s j k; KTos s k j]) ++ (if skip_at s j then [] else [KTos s j k])
    else [].

  Definition track_calls : list call :=
    flat_map (fun e => flat_map (fun p => track_pair_calls (fst e) (fst p) (snd p))
      (flat_map pairs_in (snd e))) (ts_Jtrack ts).

  Definition circ_calls : list call :=
    flat_map (fun e => map (fun p => KCirc (fst e) (fst p) (snd p)) (snd e)) (ts_Jround ts).

  Definition switch_pair_calls (s : pv) (pair : dict pv pv) : list call :=
    match unpack2 pair with
    | Ok (j, k) =>
        if not_the_same_rolling_stock j k ts then
          match departure_station4switches s j pair ts, departure_station4switches s k pair ts with
          | Ok sp, Ok spp => [KSw s j sp k spp; KSw s k spp j sp]
          | _, _ => []
          end
        else []
    | Err _ => []
    end.

  Definition switch_calls : list call :=
    flat_map (fun e => flat_map (switch_pair_calls (fst e)) (snd e)) (ts_Jswitch ts).

  Definition calls : list call :=
    span_calls ++ stay_calls ++ line_calls ++ track_calls ++ circ_calls ++ switch_calls.
End Calls.

Section Wf.
  Variables (ts : train_sets) (tt : timetable) (d_max : Q) (cat : vcat).
  Hypothesis WF : well_formed ts tt d_max.

  Let RF := wf_reserved _ _ _ WF.

  Lemma skip_at_ok s groups j : In (s, groups) (ts_Jtrack ts) -> track_skip j s ts = Ok (skip_at ts s j).
  Proof. intros I. unfold skip_at. destruct (track_skip_ok _ _ _ WF s groups j I) as (b & ->). reflexivity. Qed.

  Lemma emissions_calls dv y :
    emissions tt dv y ts d_max = map (emit_of tt dv y ts d_max) (calls ts).
  Proof.
    unfold emissions, calls. rewrite !map_app. repeat f_equal.
    - unfold span_list, span_calls. rewrite map_flat_map. apply flat_map_same. intros [s inner] _. cbn [fst snd].
      rewrite map_flat_map. apply flat_map_same. intros [sp groups] _. cbn [fst snd].
      rewrite map_flat_map, flat_map_twice. apply flat_map_same. intros js _. change (pairs_in js) with (combinations2 js).
      apply flat_map_same. intros [j k] _. reflexivity.
    - unfold stay_list, stay_calls. rewrite map_flat_map. apply flat_map_same. intros j I.
      destruct (wf_paths _ _ _ WF j I) as (path & Hp & _). unfold stations_of, dlookup. rewrite Hp. cbn [or_fail].
      rewrite map_map. reflexivity.
    - unfold line_list, line_calls. rewrite map_flat_map. apply flat_map_same. intros [[s sp] l] _. cbn [fst snd].
      rewrite map_flat_map. apply flat_map_same. intros [j k] _. cbn [fst snd].
      destruct (not_the_same_rolling_stock j k ts); reflexivity.
    - unfold track_list, track_calls. rewrite map_flat_map. apply flat_map_same. intros [s groups] I. cbn [fst snd].
      rewrite map_flat_map, flat_map_twice. apply flat_map_same. intros js _. change (pairs_in js) with (combinations2 js).
      apply flat_map_same. intros [j k] _. cbn [fst snd]. unfold track_emits, track_pair_calls.
      destruct (not_the_same_rolling_stock j k ts); [|reflexivity].
      rewrite (skip_at_ok s groups k I), (skip_at_ok s groups j I). cbn [or_fail]. rewrite map_app.
      destruct (skip_at ts s k), (skip_at ts s j); reflexivity.
    - unfold circ_list, circ_calls. rewrite map_flat_map. apply flat_map_same. intros [s l] _. cbn [fst snd].
      rewrite map_map. reflexivity.
    - unfold switch_list, switch_calls. rewrite map_flat_map. apply flat_map_same. intros [s l] I. cbn [fst snd].
      rewrite map_flat_map. apply flat_map_same. intros pair Ip. unfold switch_emits, switch_pair_calls.
      destruct (switch_entry _ _ _ WF _ _ _ I Ip) as (j & a & k & b & sp & spp & _ & -> & _ & D1 & D2 & _).
      cbn [or_fail fst snd]. destruct (not_the_same_rolling_stock j k ts); [|reflexivity].
      rewrite D1, D2. reflexivity.
  Qed.

  Lemma calls_called k : In k (calls ts) -> called ts k.
  Proof.
    unfold calls. rewrite !in_app_iff. intros [H|[H|[H|[H|[H|H]]]]].
    - apply in_flat_map in H as ([s inner] & I1 & H). apply in_flat_map in H as ([sp groups] & I2 & H).
      apply in_flat_map in H as ([i l] & I3 & H). cbn [fst snd] in *.
      apply in_flat_map in I3 as (js & I3 & I4). change (@pairs_in pv) with (@combinations2 pv) in I4.
      assert (in_span ts s sp i l) by (exists inner, groups, js; auto).
      destruct H as [<-|[<-|[]]]; cbn; auto.
    - apply in_flat_map in H as (j & I1 & H). apply in_map_iff in H as (s & <- & H). cbn. split; [exact I1|].
      destruct (wf_paths _ _ _ WF j I1) as (path & Hp & _). unfold stations_of in H. rewrite Hp in H. eauto.
    - apply in_flat_map in H as ([[s sp] l] & I1 & H). apply in_flat_map in H as ([i i'] & I2 & H). cbn [fst snd] in *.
      destruct (not_the_same_rolling_stock i i' ts) eqn:E; [|destruct H].
      assert (in_line ts s sp i i') by (exists l; auto). destruct H as [<-|[<-|[]]]; cbn; auto.
    - apply in_flat_map in H as ([s groups] & I1 & H). apply in_flat_map in H as ([i i'] & I2 & H). cbn [fst snd] in *.
      apply in_flat_map in I2 as (js & I2 & I3). change (@pairs_in pv) with (@combinations2 pv) in I3.
      unfold track_pair_calls in H. destruct (not_the_same_rolling_stock i i' ts) eqn:E; [|destruct H].
      assert (T : in_track ts s i i') by (exists groups, js; auto).
      assert (S1 := skip_at_ok s groups i I1). assert (S2 := skip_at_ok s groups i' I1).
      apply in_app_iff in H as [H|H].
      + destruct (skip_at ts s i'); [destruct H|]. destruct H as [<-|[<-|[]]]; cbn; auto.
      + destruct (skip_at ts s i); [destruct H|]. destruct H as [<-|[]]; cbn; auto.
    - apply in_flat_map in H as ([s l] & I1 & H). apply in_map_iff in H as ([i i'] & <- & H). cbn. exists l. auto.
    - apply in_flat_map in H as ([s l] & I1 & H). apply in_flat_map in H as (pair & I2 & H). cbn [fst snd] in *.
      unfold switch_pair_calls in H.
      destruct (switch_entry _ _ _ WF _ _ _ I1 I2) as (j & a & i & b & sp & spp & _ & U & _ & D1 & D2 & _).
      rewrite U in H. destruct (not_the_same_rolling_stock j i ts) eqn:E; [|destruct H].
      rewrite D1, D2 in H. assert (T : in_switch ts s pair j i) by (exists l; auto).
      destruct H as [<-|[<-|[]]]; cbn; exists pair; auto.
  Qed.

  (** ** No call is made twice *)

  Lemma line_nodup : NoDup (line_calls ts).
  Proof.
    apply nodup_flat_map.
    - apply nodup_entries. apply (wf_line_keys _ _ _ WF).
    - intros [[s sp] l] I. cbn [fst snd]. destruct (wf_line _ _ _ WF _ _ _ I) as [ND H]. apply nodup_flat_map; [exact ND| |].
      + intros [j k] Ip. cbn [fst snd]. destruct (not_the_same_rolling_stock j k ts); [|constructor].
        destruct (H _ _ Ip) as (C1 & _ & NX). constructor; [|constructor; [intros []|constructor]].
        intros [E|[]]. inversion E; subst. exact (NX _ I Ip).
      + intros [j k] [j' k'] z I1 I2 H1 H2. cbn [fst snd] in *.
        destruct (not_the_same_rolling_stock j k ts); [|destruct H1].
        destruct (not_the_same_rolling_stock j' k' ts); [|destruct H2].
        destruct (H _ _ I1) as (_ & _ & NX).
        destruct H1 as [<-|[<-|[]]], H2 as [E|[E|[]]]; inversion E; subst; try reflexivity.
        * exfalso. exact (NX _ I I2).
        * exfalso. exact (NX _ I I2).
    - intros [[s sp] l] [[s' sp'] l'] z I I' H1 H2. cbn [fst snd] in *.
      apply in_flat_map in H1 as ([j k] & J1 & H1). apply in_flat_map in H2 as ([j' k'] & J2 & H2). cbn [fst snd] in *.
      destruct (not_the_same_rolling_stock j k ts); [|destruct H1].
      destruct (not_the_same_rolling_stock j' k' ts); [|destruct H2].
      destruct (wf_line _ _ _ WF _ _ _ I) as [_ H]. destruct (H _ _ J1) as (_ & _ & NX).
      assert (G : (s', sp') = (s, sp) -> ((s, sp), l) = ((s', sp'), l')).
      { intros E. rewrite E in *. f_equal. eapply same_entry; [apply (wf_line_keys _ _ _ WF)|exact I|exact I']. }
      destruct H1 as [<-|[<-|[]]], H2 as [E|[E|[]]]; inversion E; subst; try (apply G; reflexivity);
        exfalso; exact (NX _ I' J2).
  Qed.

  Lemma group_pairs (groups : list (list pv)) (p : pv * pv) : In p (flat_map pairs_in groups) -> exists js, In js groups /\ listed js (fst p) (snd p).
  Proof.
    intros H. apply in_flat_map in H as (js & I & H). exists js. split; [exact I|]. apply listed_combinations.
    change (@pairs_in pv) with (@combinations2 pv) in H. destruct p. exact H.
  Qed.

  Lemma group_asym groups j k : proper_groups ts groups -> In (j, k) (flat_map pairs_in groups) ->
    ~ In (k, j) (flat_map pairs_in groups) /\ j <> k.
  Proof.
    intros [L _] H. apply group_pairs in H as (js & I & H). cbn [fst snd] in H. apply L in H; [|exact I].
    assert (NJ := wf_trains _ _ _ WF). split; [|eapply listed_neq; eauto].
    intros H'. apply group_pairs in H' as (js' & I' & H'). cbn [fst snd] in H'. apply L in H'; [|exact I'].
    eapply listed_asym; eauto.
  Qed.

  Lemma span_nodup : NoDup (span_calls ts).
  Proof.
    apply nodup_flat_map.
    - apply nodup_entries. apply (wf_Jd_keys _ _ _ WF).
    - intros [s inner] I. cbn [fst snd]. apply nodup_flat_map.
      + apply nodup_entries. exact (wf_inner_keys _ _ _ WF _ _ I).
      + intros [sp groups] I'. cbn [fst snd]. destruct (wf_Jd _ _ _ WF _ _ _ _ I I') as [PG _].
        apply nodup_flat_map; [apply PG| |].
        * intros [j k] P. cbn [fst snd]. destruct (group_asym _ _ _ PG P) as [_ N].
          constructor; [|constructor; [intros []|constructor]]. intros [E|[]]. inversion E; subst. congruence.
        * intros [j k] [j' k'] z P P' H1 H2. cbn [fst snd] in *. destruct (group_asym _ _ _ PG P) as [NX _].
          destruct H1 as [<-|[<-|[]]], H2 as [E|[E|[]]]; inversion E; subst; try reflexivity; contradiction.
      + intros [sp groups] [sp' groups'] z I1 I2 H1 H2. cbn [fst snd] in *.
        apply in_flat_map in H1 as ([j k] & J1 & H1). apply in_flat_map in H2 as ([j' k'] & J2 & H2). cbn [fst snd] in *.
        assert (sp' = sp) by (destruct H1 as [<-|[<-|[]]], H2 as [E|[E|[]]]; congruence). subst sp'.
        f_equal. eapply same_entry; [exact (wf_inner_keys _ _ _ WF _ _ I)|exact I1|exact I2].
    - intros [s inner] [s' inner'] z I1 I2 H1 H2. cbn [fst snd] in *.
      apply in_flat_map in H1 as (f & _ & H1). apply in_flat_map in H1 as (p & _ & H1).
      apply in_flat_map in H2 as (f' & _ & H2). apply in_flat_map in H2 as (p' & _ & H2).
      assert (s' = s) by (destruct H1 as [<-|[<-|[]]], H2 as [E|[E|[]]]; congruence). subst s'.
      f_equal. eapply same_entry; [exact (wf_Jd_keys _ _ _ WF)|exact I1|exact I2].
  Qed.

  Lemma stay_nodup : NoDup (stay_calls ts).
  Proof.
    apply nodup_flat_map.
    - apply (wf_trains _ _ _ WF).
    - intros j I. destruct (wf_paths _ _ _ WF j I) as (path & Hp & ND). unfold stations_of. rewrite Hp.
      apply FinFun.Injective_map_NoDup; [|exact ND]. intros a b E. congruence.
    - intros j j' z _ _ H1 H2. apply in_map_iff in H1 as (s & <- & _). apply in_map_iff in H2 as (s' & E & _). congruence.
  Qed.

  Lemma track_pair_cases s j k z : In z (track_pair_calls ts s j k) -> z = KKto s j k \/ z = KTos s j k \/ z = KTos s k j.
  Proof.
    unfold track_pair_calls. destruct (not_the_same_rolling_stock j k ts); [|intros []].
    rewrite in_app_iff. destruct (skip_at ts s k), (skip_at ts s j); cbn; intuition.
  Qed.

  Lemma track_nodup : NoDup (track_calls ts).
  Proof.
    apply nodup_flat_map.
    - apply nodup_entries. apply (wf_track_keys _ _ _ WF).
    - intros [s groups] I. cbn [fst snd]. destruct (wf_track _ _ _ WF _ _ I) as [PG _].
      apply nodup_flat_map; [apply PG| |].
      + intros [j k] P. cbn [fst snd]. destruct (group_asym _ _ _ PG P) as [_ N]. unfold track_pair_calls.
        destruct (not_the_same_rolling_stock j k ts); [|constructor].
        destruct (skip_at ts s k), (skip_at ts s j); cbn [app];
          repeat (constructor; [cbn; intuition congruence|]); constructor.
      + intros [j k] [j' k'] z P P' H1 H2. cbn [fst snd] in *. destruct (group_asym _ _ _ PG P) as [NX _].
        apply track_pair_cases in H1. apply track_pair_cases in H2.
        destruct H1 as [->|[->| ->]], H2 as [E|[E|E]]; inversion E; subst; try reflexivity; contradiction.
    - intros [s groups] [s' groups'] z I1 I2 H1 H2. cbn [fst snd] in *.
      apply in_flat_map in H1 as (p & _ & H1). apply in_flat_map in H2 as (p' & _ & H2).
      apply track_pair_cases in H1. apply track_pair_cases in H2.
      assert (s' = s) by (destruct H1 as [->|[->| ->]], H2 as [E|[E|E]]; congruence). subst s'.
      f_equal. eapply same_entry; [exact (wf_track_keys _ _ _ WF)|exact I1|exact I2].
  Qed.

  Lemma circ_nodup : NoDup (circ_calls ts).
  Proof.
    apply nodup_flat_map.
    - apply nodup_entries. apply (wf_round_keys _ _ _ WF).
    - intros [s l] I. cbn [fst snd]. apply FinFun.Injective_map_NoDup; [|exact (proj1 (wf_round _ _ _ WF _ _ I))].
      intros [a b] [a' b'] E. cbn in E. congruence.
    - intros [s l] [s' l'] z I1 I2 H1 H2. cbn [fst snd] in *.
      apply in_map_iff in H1 as (p & <- & _). apply in_map_iff in H2 as (p' & E & _).
      assert (s' = s) by congruence. subst s'.
      f_equal. eapply same_entry; [exact (wf_round_keys _ _ _ WF)|exact I1|exact I2].
  Qed.

  (** The places of a switch entry are known from the stations the trains leave. *)
  Lemma place_of s j a b u :
    (a = PStr "out" /\ u = s /\ decided ts j s) \/ (a = PStr "in" /\ comes_before ts j u s) ->
    (b = PStr "out" /\ u = s /\ decided ts j s) \/ (b = PStr "in" /\ comes_before ts j u s) -> a = b.
  Proof.
    assert (N : ~ comes_before ts j s s).
    { intros (path & l1 & l2 & _ & _ & N). apply N. apply in_app_iff. cbn. auto. }
    intros [(-> & -> & _)|(-> & C)] [(-> & E & _)|(-> & C')]; try reflexivity; [tauto|subst u; tauto].
  Qed.

  Lemma switch_pair_cases s l pair z : In (s, l) (ts_Jswitch ts) -> In pair l -> In z (switch_pair_calls ts s pair) ->
    exists j a k b sp spp, pair = [(j, a); (k, b)] /\ listed (ts_J ts) j k /\
      ((a = PStr "out" /\ sp = s /\ decided ts j s) \/ (a = PStr "in" /\ comes_before ts j sp s)) /\
      ((b = PStr "out" /\ spp = s /\ decided ts k s) \/ (b = PStr "in" /\ comes_before ts k spp s)) /\
      (z = KSw s j sp k spp \/ z = KSw s k spp j sp).
  Proof.
    intros I1 I2 H. destruct (switch_entry _ _ _ WF _ _ _ I1 I2) as (j & a & k & b & sp & spp & E & U & L & D1 & D2 & C1 & C2 & _).
    exists j, a, k, b, sp, spp. do 4 (split; [assumption|]). unfold switch_pair_calls in H. rewrite U in H.
    destruct (not_the_same_rolling_stock j k ts); [|destruct H]. rewrite D1, D2 in H.
    destruct H as [<-|[<-|[]]]; auto.
  Qed.

  Lemma switch_nodup : NoDup (switch_calls ts).
  Proof.
    assert (NJ := wf_trains _ _ _ WF). apply nodup_flat_map.
    - apply nodup_entries. apply (wf_switch_keys _ _ _ WF).
    - intros [s l] I. cbn [fst snd]. apply nodup_flat_map; [exact (proj1 (wf_switch _ _ _ WF _ _ I))| |].
      + intros pair Ip. unfold switch_pair_calls.
        destruct (switch_entry _ _ _ WF _ _ _ I Ip) as (j & a & k & b & sp & spp & _ & -> & L & D1 & D2 & _).
        destruct (not_the_same_rolling_stock j k ts); [|constructor]. rewrite D1, D2.
        constructor; [|constructor; [intros []|constructor]]. intros [E|[]].
        apply (listed_neq _ _ _ NJ L). congruence.
      + intros p p' z Ip Ip' H1 H2.
        destruct (switch_pair_cases _ _ _ _ I Ip H1) as (j & a & k & b & sp & spp & -> & L & C1 & C2 & E1).
        destruct (switch_pair_cases _ _ _ _ I Ip' H2) as (j' & a' & k' & b' & sp' & spp' & -> & L' & C1' & C2' & E2).
        destruct E1 as [->| ->], E2 as [E|E]; inversion E; subst j' k' sp' spp'.
        * rewrite (place_of _ _ _ _ _ C1 C1'), (place_of _ _ _ _ _ C2 C2'). reflexivity.
        * exfalso. eapply listed_asym; eauto.
        * exfalso. eapply listed_asym; eauto.
        * rewrite (place_of _ _ _ _ _ C1 C1'), (place_of _ _ _ _ _ C2 C2'). reflexivity.
    - intros [s l] [s' l'] z I I' H1 H2. cbn [fst snd] in *.
      apply in_flat_map in H1 as (p & Ip & H1). apply in_flat_map in H2 as (p' & Ip' & H2).
      destruct (switch_pair_cases _ _ _ _ I Ip H1) as (j & a & k & b & sp & spp & _ & _ & _ & _ & E1).
      destruct (switch_pair_cases _ _ _ _ I' Ip' H2) as (j' & a' & k' & b' & sp' & spp' & _ & _ & _ & _ & E2).
      assert (s' = s) by (destruct E1 as [->| ->], E2 as [E|E]; congruence). subst s'.
      f_equal. eapply same_entry; [exact (wf_switch_keys _ _ _ WF)|exact I|exact I'].
  Qed.

  Definition family (k : call) : nat :=
    match k with
    | KMs _ _ _ _ => 0 | KStay _ _ => 1 | KSl _ _ _ _ => 2 | KKto _ _ _ => 3 | KTos _ _ _ => 3
    | KCirc _ _ _ => 4 | KSw _ _ _ _ _ => 5
    end.

  Lemma calls_nodup : NoDup (calls ts).
  Proof.
    assert (F0 : forall k, In k (span_calls ts) -> family k = 0%nat).
    { intros k H. apply in_flat_map in H as (? & _ & H). apply in_flat_map in H as (? & _ & H).
      apply in_flat_map in H as (? & _ & H). destruct H as [<-|[<-|[]]]; reflexivity. }
    assert (F1 : forall k, In k (stay_calls ts) -> family k = 1%nat).
    { intros k H. apply in_flat_map in H as (? & _ & H). apply in_map_iff in H as (? & <- & _). reflexivity. }
    assert (F2 : forall k, In k (line_calls ts) -> family k = 2%nat).
    { intros k H. apply in_flat_map in H as (? & _ & H). apply in_flat_map in H as (? & _ & H).
      destruct (not_the_same_rolling_stock _ _ ts); [|destruct H]. destruct H as [<-|[<-|[]]]; reflexivity. }
    assert (F3 : forall k, In k (track_calls ts) -> family k = 3%nat).
    { intros k H. apply in_flat_map in H as (? & _ & H). apply in_flat_map in H as (? & _ & H).
      apply track_pair_cases in H as [->|[->| ->]]; reflexivity. }
    assert (F4 : forall k, In k (circ_calls ts) -> family k = 4%nat).
    { intros k H. apply in_flat_map in H as (? & _ & H). apply in_map_iff in H as (? & <- & _). reflexivity. }
    assert (F5 : forall k, In k (switch_calls ts) -> family k = 5%nat).
    { intros k H. apply in_flat_map in H as ([s l] & I & H). apply in_flat_map in H as (p & Ip & H). cbn [fst snd] in *.
      destruct (switch_pair_cases _ _ _ _ I Ip H) as (? & ? & ? & ? & ? & ? & _ & _ & _ & _ & [->| ->]); reflexivity. }
    assert (NE : forall k n, family k = n -> (5 < n)%nat -> False) by (intros [] n <-; cbn; lia).
    unfold calls.
    repeat (apply nodup_app; [first [apply span_nodup|apply stay_nodup|apply line_nodup|apply track_nodup|apply circ_nodup]| |
      intros z H1 H2; rewrite ?in_app_iff in H2;
      repeat match goal with
        | H : In _ (span_calls ts) |- _ => apply F0 in H
        | H : In _ (stay_calls ts) |- _ => apply F1 in H
        | H : In _ (line_calls ts) |- _ => apply F2 in H
        | H : In _ (track_calls ts) |- _ => apply F3 in H
        | H : In _ (circ_calls ts) |- _ => apply F4 in H
        | H : In _ (switch_calls ts) |- _ => apply F5 in H
        | H : _ \/ _ |- _ => destruct H
        end; congruence]).
    apply switch_nodup.
  Qed.

  (** ** Different calls get different names *)

  Notation T j := (In j (mentioned_trains ts)).
  Notation St s := (In s (mentioned_stations ts)).

  Inductive words : call -> list string -> Prop :=
  | w_ms s sp j k : T j -> T k -> St s -> St sp ->
      words (KMs s sp j k) ["minimal"; "span"; str k; str j; str s; str sp]
  | w_stay j s : T j -> St s -> words (KStay j s) ["minimal"; "stay"; str j; str s]
  | w_sl s sp j k : T j -> T k -> St s -> St sp ->
      words (KSl s sp j k) ["single"; "line"; str j; str k; str s; str sp]
  | w_kto s sp j k : T j -> T k -> St s -> St sp ->
      words (KKto s j k) ["track"; "occupation"; str j; str k; str s; str sp]
  | w_rr s j k jn : T j -> T k -> T jn -> St s ->
      words (KTos s j k) ["track"; "occupation"; str j; str k; str jn; str s]
  | w_tos s j k : T j -> T k -> St s ->
      words (KTos s j k) ["track"; "occupation"; str j; str k; str s; "p"]
  | w_circ s j k : T j -> T k -> St s -> words (KCirc s j k) ["circulation"; str j; str k; str s]
  | w_sw s j sp k spp : T j -> T k -> St s -> St sp -> St spp ->
      words (KSw s j sp k spp) ["switch"; str j; str k; str s; str sp; str spp].

  Lemma words_plain k ws : words k ws -> ws <> [] /\ Forall (fun w => all_chars plain_char w = true) ws.
  Proof.
    destruct (wf_plain _ _ _ WF) as (PT & PS & _). unfold plain in PT, PS.
    intros H. inversion H; subst; (split; [discriminate|]);
      repeat (apply Forall_cons; [first [reflexivity|apply PT; assumption|apply PS; assumption]|]); apply Forall_nil.
  Qed.

  Lemma words_inj k k' ws : words k ws -> words k' ws -> k = k'.
  Proof.
    destruct (wf_plain _ _ _ WF) as (_ & _ & IT & IS).
    assert (IS' : forall a b, St a -> St b -> str a = str b -> a = b) by (intros; apply IS; cbn; auto).
    intros H H'. inversion H; subst ws k; inversion H'; subst;
      repeat match goal with
        | A : T ?a, B : T ?b, E : str ?a = str ?b |- _ => assert (a = b) by (apply IT; assumption); clear E; subst
        | A : St ?a, B : St ?b, E : str ?a = str ?b |- _ => assert (a = b) by (apply IS'; assumption); clear E; subst
        end; try reflexivity; exfalso;
      match goal with
      | A : St ?a, E : "p" = str ?a |- _ => exact (wf_p _ _ _ WF _ A (eq_sym E))
      | A : St ?a, E : str ?a = "p" |- _ => exact (wf_p _ _ _ WF _ A E)
      | A : T ?a, B : St ?b, E : str ?a = str ?b |- _ => exact (wf_apart _ _ _ WF _ _ A B E)
      | A : T ?a, B : St ?b, E : str ?b = str ?a |- _ => exact (wf_apart _ _ _ WF _ _ A B (eq_sym E))
      end.
  Qed.

  Lemma before_stations j sp s : comes_before ts j sp s -> St sp /\ St s.
  Proof.
    intros (path & l1 & l2 & H & E & _). split; eapply mention_path; try exact H; rewrite E; apply in_app_iff; cbn; auto.
  Qed.

  Lemma called_mentions k : called ts k ->
    match k with
    | KMs s sp i l | KSl s sp i l => T i /\ T l /\ St s /\ St sp
    | KStay i s => T i /\ St s
    | KKto s i l | KTos s i l | KCirc s i l => T i /\ T l /\ St s
    | KSw s i sp l spp => T i /\ T l /\ St s /\ St sp /\ St spp
    end.
  Proof.
    assert (Sp : forall s sp i l, in_span ts s sp i l -> T i /\ T l /\ St s /\ St sp).
    { intros s sp i l (inner & groups & js & I1 & I2 & I3 & I4). apply combinations2_mem in I4 as [A B].
      destruct (mention_jd ts _ _ _ _ _ _ I1 I2 I3 A) as (? & ? & ?).
      destruct (mention_jd ts _ _ _ _ _ _ I1 I2 I3 B) as (? & _). auto. }
    assert (Sl : forall s sp i l, in_line ts s sp i l -> T i /\ T l /\ St s /\ St sp).
    { intros s sp i l (ps & I1 & I2 & _). exact (mention_single ts _ _ _ _ I1 I2). }
    assert (Tr : forall s i l, in_track ts s i l -> T i /\ T l /\ St s).
    { intros s i l (groups & js & I1 & I2 & I3 & _). apply combinations2_mem in I3 as [A B].
      destruct (mention_track ts _ _ _ _ I1 I2 A). destruct (mention_track ts _ _ _ _ I1 I2 B). auto. }
    destruct k; cbn [called].
    - intros [H|H]; apply Sp in H; tauto.
    - intros (I & path & Hp & Hs). split; [apply in_app_iff; auto|eapply mention_path; eauto].
    - intros [H|H]; apply Sl in H; tauto.
    - intros (H & _). apply Tr in H. tauto.
    - intros (_ & [H|H]); apply Tr in H; tauto.
    - intros (l & I1 & I2). exact (mention_round ts _ _ _ _ I1 I2).
    - assert (G : forall pair i i' u u', in_switch ts s pair i i' -> departure_station4switches s i pair ts = Ok u ->
        departure_station4switches s i' pair ts = Ok u' -> T i /\ T i' /\ St s /\ St u /\ St u').
      { intros pair i i' u u' (l & I1 & I2 & U & _) D1 D2.
        destruct (switch_entry _ _ _ WF _ _ _ I1 I2) as (a1 & a & b1 & b & w & w' & EP & U' & _ & D1' & D2' & C1 & C2 & _).
        rewrite U in U'. inversion U'; subst a1 b1. rewrite D1 in D1'. rewrite D2 in D2'.
        inversion D1'; inversion D2'; subst w w'. destruct (unpack2_keys _ _ _ U) as [K1 K2].
        destruct (mention_switch ts _ _ _ _ I1 I2 K1) as [M1 M2]. destruct (mention_switch ts _ _ _ _ I1 I2 K2) as [M3 _].
        split; [exact M1|]. split; [exact M3|]. split; [exact M2|]. split.
        - destruct C1 as [(_ & -> & _)|(_ & C)]; [exact M2|apply before_stations in C; tauto].
        - destruct C2 as [(_ & -> & _)|(_ & C)]; [exact M2|apply before_stations in C; tauto]. }
      intros (pair & [H|H] & D1 & D2); [assert (G' := G _ _ _ _ _ H D1 D2)|assert (G' := G _ _ _ _ _ H D2 D1)]; tauto.
  Qed.

  Lemma emit_words dv y k n c : called ts k -> emit_of tt dv y ts d_max k = Ok (Some (n, c)) ->
    exists ws, words k ws /\ n = join_us ws.
  Proof.
    intros C H. apply called_mentions in C. destruct k; cbn [emit_of] in H.
    - apply ms_shape in H as (? & ? & ? & _ & _ & _ & [(? & _)|(? & ? & ? & _ & _ & _ & _ & H)]); [discriminate|].
      eexists. split; [apply w_ms; tauto|]. assert (n = ms_name s sp j jp) by congruence. subst n. reflexivity.
    - apply stay_shape in H as (? & ? & _ & _ & [(? & _)|(_ & ? & _ & [(? & _)|(_ & ? & ? & ? & ? & ? & ? & _ & _ & _ & _ & _ & _ & H)])]);
        [discriminate|discriminate|].
      eexists. split; [apply w_stay; tauto|]. assert (n = stay_name j s) by congruence. subst n. reflexivity.
    - apply sl_shape in H as (? & ? & ? & _ & _ & _ & [(? & _)|(? & ? & ? & _ & _ & _ & _ & H)]); [discriminate|].
      eexists. split; [apply w_sl; tauto|]. assert (n = sl_name s sp j jp) by congruence. subst n. reflexivity.
    - apply kto_shape in H as (path & sp & _ & _ & [H|(c' & inner & groups & H & _ & ED & _)]); [discriminate|].
      assert (St sp).
      { apply dget_in in ED. unfold mentioned_stations. rewrite !in_app_iff. right; right; left.
        apply in_flat_map. eexists. split; [exact ED|]. left. reflexivity. }
      eexists. split; [apply (w_kto s sp); tauto|]. assert (n = kto_name s j jp sp) by congruence. subst n. reflexivity.
    - apply tos_shape in H as [(N & y1 & y2 & _ & _ & H)|(_ & ? & ? & ? & ? & _ & _ & _ & [(? & _)|(? & ? & ? & _ & _ & _ & _ & H)])];
        [|discriminate|].
      + destruct (subsequent_train_spec ts RF j s) as [[_ CA]|[E _]]; [|contradiction].
        apply continues_as_mention in CA as (_ & CA & _).
        eexists. split; [apply (w_rr s j jp (subsequent_train_at_Jround ts j s)); tauto|].
        assert (n = rr_name s j jp (subsequent_train_at_Jround ts j s)) by congruence. subst n. reflexivity.
      + eexists. split; [apply w_tos; tauto|]. assert (n = tos_name s j jp) by congruence. subst n. reflexivity.
    - apply circ_shape in H as (? & ? & ? & ? & ? & ? & _ & _ & _ & _ & _ & _ & [(? & _)|(? & ? & _ & _ & _ & H)]); [discriminate|].
      eexists. split; [apply w_circ; tauto|]. assert (n = circ_name s j jp) by congruence. subst n. reflexivity.
    - apply sw_shape in H as (? & ? & ? & _ & _ & _ & [(? & _)|(? & ? & ? & ? & _ & _ & _ & _ & _ & H)]); [discriminate|].
      eexists. split; [apply w_sw; tauto|]. assert (n = sw_name s jp sp jpp spp) by congruence. subst n. reflexivity.
  Qed.

  Lemma names_differ dv y k k' n n' c c' : called ts k -> called ts k' ->
    emit_of tt dv y ts d_max k = Ok (Some (n, c)) -> emit_of tt dv y ts d_max k' = Ok (Some (n', c')) ->
    constraint_name n = constraint_name n' -> k = k'.
  Proof.
    intros C C' H H' E. destruct (emit_words _ _ _ _ _ C H) as (ws & W & ->).
    destruct (emit_words _ _ _ _ _ C' H') as (ws' & W' & ->).
    destruct (words_plain _ _ W) as [N P]. destruct (words_plain _ _ W') as [N' P'].
    rewrite !cname_fixed in E by (apply join_plain; assumption). apply join_inj in E; auto. subst ws'.
    eapply words_inj; eauto.
  Qed.

  Lemma emitted_nodup dv y l : NoDup l -> (forall k, In k l -> called ts k) ->
    NoDup (map fst (somes (map (emit_of tt dv y ts d_max) l))).
  Proof.
    induction l as [|k l IH]; intros ND C; cbn [map somes]; [constructor|]. inversion ND; subst.
    assert (IH' := IH H2 (fun k I => C k (or_intror I))).
    destruct (emit_of tt dv y ts d_max k) as [[[n c]|]|] eqn:E; try exact IH'.
    cbn [map fst snd]. constructor; [|exact IH']. intros I. apply in_map_iff in I as ([n' c'] & En & I). cbn [fst] in En.
    apply somes_emitted in I as (m & I & Em). apply in_map_iff in I as (k' & Ek & Ik).
    apply H1. rewrite (names_differ dv y k k' n m c c'); auto; [apply C; cbn; auto|apply C; cbn; auto|congruence].
  Qed.

  (** ** The whole problem *)

  Lemma not_same j k : not_the_same_rolling_stock j k ts = true -> ~ same_rolling_stock ts j k.
  Proof. apply not_same_rolling_spec. Qed.

  Lemma same_sym j k : ~ same_rolling_stock ts j k -> ~ same_rolling_stock ts k j.
  Proof. intros N [H (s & l & I & [H1|H1])]; apply N; (split; [congruence|]); exists s, l; auto. Qed.

  Lemma called_total dv y k : delay_varibles ts d_max cat = Ok dv -> order_variables ts = Ok y -> oriented ts y ->
    called ts k -> exists o, emit_of tt dv y ts d_max k = Ok o.
  Proof.
    intros Hdv Hy HO C. destruct (order_variables_cover ts RF y Hy) as (K1 & K2 & K3 & K4).
    destruct k; cbn [called emit_of] in *.
    - assert (G : forall i l, in_span ts s sp i l -> decided ts i s /\ decided ts l s /\
        (exists h, headway tt i l s sp h) /\ (exists h, headway tt l i s sp h) /\ covered3 i l s y).
      { intros i l (inner & groups & js & I1 & I2 & I3 & I4).
        destruct (wf_Jd _ _ _ WF _ _ _ _ I1 I2) as [_ H]. destruct (H js i l I3) as (? & ? & ? & ?); [apply listed_combinations; exact I4|].
        do 4 (split; [assumption|]). eapply K2; eauto. }
      destruct C as [C|C]; apply G in C as (D1 & D2 & H1 & H2 & CV); eapply ms_ok; eauto. unfold covered3 in *. tauto.
    - destruct C as (_ & path & Hp & Hs). eapply stay_ok; eauto. exists path. auto.
    - assert (G : forall u w i l, in_line ts u w i l -> comes_before ts i u w /\ comes_before ts l w u /\
        (present y [i; l; u; w] \/ present y [l; i; w; u])).
      { intros u w i l (ps & I1 & I2 & _). destruct (wf_line _ _ _ WF _ _ _ I1) as [_ H]. destruct (H _ _ I2) as (? & ? & _).
        do 2 (split; [assumption|]). exact (K1 _ _ _ _ I1 I2). }
      destruct C as [C|C]; apply G in C as (D1 & D2 & P); eapply sl_ok; eauto. tauto.
    - destruct C as [(groups & js & I1 & I2 & I3 & _) _]. eapply kto_ok; eauto. apply listed_combinations. exact I3.
    - destruct C as [SK [(groups & js & I1 & I2 & I3 & NS)|(groups & js & I1 & I2 & I3 & NS)]]; apply not_same in NS;
        assert (CV := K3 _ _ _ _ _ I1 I2 I3); apply combinations2_mem in I3 as [A B];
        eapply tos_ok; eauto; [unfold covered3 in *; tauto|apply same_sym; exact NS].
    - destruct C as (l & I1 & I2). destruct (wf_round _ _ _ WF _ _ I1) as [_ H]. destruct (H _ _ I2) as (_ & ? & ? & ? & ?).
      eapply circ_ok; eauto.
    - assert (G : forall pair i i' u u', in_switch ts s pair i i' -> departure_station4switches s i pair ts = Ok u ->
        departure_station4switches s i' pair ts = Ok u' -> passes ts s i u /\ passes ts s i' u' /\ switch_covered ts s u u' i i' y).
      { intros pair i i' u u' (l & I1 & I2 & U & _) D1 D2.
        destruct (switch_entry _ _ _ WF _ _ _ I1 I2) as (a1 & a & b1 & b & w & w' & EP & U' & _ & D1' & D2' & C1 & C2 & _).
        destruct (K4 _ _ _ I1 I2) as (a2 & b2 & w2 & w2' & U2 & D12 & D22 & CV).
        rewrite U in U', U2. inversion U'; inversion U2; subst a1 b1 a2 b2. rewrite D1 in D1', D12. rewrite D2 in D2', D22.
        inversion D1'; inversion D2'; inversion D12; inversion D22; subst w w' w2 w2'. unfold passes.
        split; [|split; [|exact CV]].
        - destruct C1 as [(_ & -> & ?)|(_ & ?)]; auto.
        - destruct C2 as [(_ & -> & ?)|(_ & ?)]; auto. }
      destruct C as (pair & [H|H] & D1 & D2).
      + destruct (G _ _ _ _ _ H D1 D2) as (P1 & P2 & CV). eapply sw_ok; eauto.
      + destruct (G _ _ _ _ _ H D2 D1) as (P1 & P2 & CV). eapply sw_ok; eauto. apply switch_covered_sym. exact CV.
  Qed.

  Lemma objective_total dv : delay_varibles ts d_max cat = Ok dv -> exists a, obj_aff tt dv ts d_max = Ok a.
  Proof.
    intros Hdv. unfold obj_aff.
    destruct (foldM_total (fun _ : aff => True) (fun acc i => do path <- dlookup i (ts_Paths ts);
      foldM (fun acc j => obj_add tt dv d_max acc i j) path acc) (ts_J ts) (aff_const 0) I) as (a & E & _); [|eauto].
    intros acc i Ii _. destruct (wf_paths _ _ _ WF i Ii) as (path & Hp & _). unfold dlookup. rewrite Hp. cbn [bind].
    destruct (foldM_total (fun _ : aff => True) (fun acc j => obj_add tt dv d_max acc i j) path acc I) as (a & E & _); [|eauto].
    intros acc' s Is _. unfold obj_add. cbv zeta. destruct (Qeq_bool (penalty_weights tt i s) 0) eqn:E; [eauto|].
    apply Qeq_bool_neq in E. assert (D : decided ts i s).
    { unfold penalty_weights in E. destruct (dget (key_js i s) (tt_weights tt)) as [w|] eqn:Ew; [|exfalso; apply E; reflexivity].
      eapply (wf_weights _ _ _ WF); [exact Ii|exists path; auto|exact Ew|exact E]. }
    destruct (get2_ok _ _ _ _ _ WF Hdv _ _ D) as (v & ->). cbn [bind]. unfold objective_term.
    destruct (Qeq_bool d_max 0) eqn:Ed; [apply Qeq_bool_iff in Ed; destruct (wf_dmax _ _ _ WF Ed)|].
    cbn [bind]. eauto.
  Qed.

  Theorem builds : exists p, create_linear_problem ts tt d_max cat = Ok p.
  Proof.
    rewrite create_linear_problem_eq.
    destruct (delays_built ts tt d_max cat WF) as (dv & Hdv). rewrite Hdv. cbn [bind].
    destruct (orders_built ts tt d_max WF) as (y & Hy & HO). rewrite Hy. cbn [bind].
    destruct (apply_emits_total (emissions tt dv y ts d_max) empty_problem) as (q & Hq).
    - intros e I. rewrite emissions_calls in I. apply in_map_iff in I as (k & E & I). apply calls_called in I.
      destruct (called_total dv y k Hdv Hy HO I) as (o & E'). congruence.
    - cbn. rewrite emissions_calls. apply emitted_nodup; [apply calls_nodup|apply calls_called].
    - rewrite Hq. cbn [bind]. destruct (objective_total dv Hdv) as (a & ->). cbn [bind]. eauto.
  Qed.
End Wf.
