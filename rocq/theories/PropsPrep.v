(** * PropsPrep: claims about stopping and preparation times (C38) *)

From Coq Require Import List String Ascii ZArith QArith Qabs Qround Bool Arith Lia Lqa.
From Verif Require Import Sim.
From Verif Require Import Base BaseFacts DataTables DataSets DataTimes SpecTables SpecSets SpecDurations
  TableFacts SetFacts TimeFacts PropsTables PropsSets PropsSwitch PropsTimes.
Import ListNotations.
Open Scope string_scope.
Open Scope list_scope.

(** Entries of one station: stop and preparation *)
Definition stop_entries (td : train_dict) (st : station_blocks) (r : Z) (train : Z) (len : nat) (is : nat * string)
  : res (list (string * Q) * list (string * Q)) :=
  do skip <-
    (if Nat.eqb (fst is) (len - 1) then
       do tt <- train_time_table td train;
       do bs <- blocks_list_4station tt (snd is) st;
       do b <- lnth bs 0;
       do n <- subsequent_block (path_of tt) b;
       Ok (match n with None => true | Some _ => false end)
     else Ok false);
  if (skip : bool) then Ok ([], [])
  else
    do '(t, prep) <- stop_time train (snd is) td st true r;
    Ok ([(key2 train (snd is), t)], prep).

Definition both (ess : list (list (string * Q) * list (string * Q))) : list (string * Q) * list (string * Q) :=
  (List.concat (map fst ess), List.concat (map snd ess)).

Lemma station_step td st r t len acc is : fst is = 0%nat \/ fst acc = true ->
  taus_stop_station td st r t len acc is =
  do es <- stop_entries td st r t len is; Ok (true, (dupdate (fst (snd acc)) (fst es), dupdate (snd (snd acc)) (snd es))).
Proof.
  intros H. unfold taus_stop_station, stop_entries.
  assert (F : (if Nat.eqb (fst is) 0 then true else fst acc) = true).
  { destruct (Nat.eqb_spec (fst is) 0); auto. destruct H; [contradiction|auto]. }
  rewrite F. match goal with |- (do _ <- ?x; _) = _ => destruct x as [[|]|] end; cbn [bind]; [|
    |reflexivity].
  - destruct acc as [f [a b]]. reflexivity.
  - destruct (stop_time t (snd is) td st true r) as [[q prep]|]; reflexivity.
Qed.

Lemma path_fold td st r t len path : forall k acc, k = 0%nat \/ fst acc = true ->
  foldM (taus_stop_station td st r t len) (combine (seq k (List.length path)) path) acc =
  do ess <- mapM (stop_entries td st r t len) (combine (seq k (List.length path)) path);
  Ok (match path with [] => fst acc | _ => true end,
      (dupdate (fst (snd acc)) (fst (both ess)), dupdate (snd (snd acc)) (snd (both ess)))).
Proof.
  induction path as [|s path IH]; intros k acc H.
  - cbn. destruct acc as [f [a b]]. reflexivity.
  - cbn [List.length seq combine]. rewrite mapM_cons. cbn [foldM]. rewrite station_step by (cbn [fst]; destruct H; auto).
    destruct (stop_entries td st r t len (k, s)) as [es|]; [|reflexivity]. cbn [bind].
    rewrite IH by (right; reflexivity). destruct (mapM _ _) as [ess|]; [|reflexivity]. cbn [bind fst snd].
    unfold both. cbn [map List.concat fst snd]. rewrite !dupdate_app. destruct path; reflexivity.
Qed.

Lemma paths_fold td st r trains : forall acc,
  exists f,
  foldM (fun acc train =>
      do path <- dlookup train (get_Paths td);
      foldM (taus_stop_station td st r train (List.length path)) (combine (seq 0 (List.length path)) path) acc) trains acc =
  do ess <- mapM (fun t => do path <- dlookup t (get_Paths td);
                           do ess <- mapM (stop_entries td st r t (List.length path)) (combine (seq 0 (List.length path)) path);
                           Ok (both ess)) trains;
  Ok (f, (dupdate (fst (snd acc)) (fst (both ess)), dupdate (snd (snd acc)) (snd (both ess)))).
Proof.
  induction trains as [|t trains IH]; intros acc.
  - exists (fst acc). cbn. destruct acc as [f [a b]]. reflexivity.
  - rewrite mapM_cons. cbn [foldM]. destruct (dlookup t (get_Paths td)) as [path|]; [|exists true; reflexivity]. cbn [bind].
    rewrite path_fold by auto. destruct (mapM _ (combine _ path)) as [ess|]; [|exists true; reflexivity]. cbn [bind].
    edestruct IH as (f & E). exists f. rewrite E. cbn [fst snd]. destruct (mapM _ trains) as [ess'|]; [|reflexivity]. cbn [bind].
    unfold both. cbn [map List.concat fst snd]. rewrite !dupdate_app. reflexivity.
Qed.

(** ** One station *)

Lemma last_row tt pre r post s : visits_once tt -> tt = pre ++ r :: post -> r_station r = Some s -> (ends_at tt s <-> post = []).
Proof.
  intros V E Er. split.
  - intros (f & x & E' & Ex). destruct (row_unique tt pre r post f x [] s V E E' Er Ex) as (_ & _ & ->). reflexivity.
  - intros ->. exists pre, r. auto.
Qed.

Lemma next_block tt pre r post : NoDup (map r_block tt) -> tt = pre ++ r :: post ->
  exists o, subsequent_block (path_of tt) (r_block r) = Ok o /\ (o = None <-> post = []).
Proof.
  intros ND ->. unfold subsequent_block, path_of. rewrite map_app in *. cbn [map] in *.
  assert (M : lmem (r_block r) (map r_block pre ++ r_block r :: map r_block post) = true).
  { apply lmem_true, in_app_iff. right. left. reflexivity. }
  rewrite M. cbn [negb]. rewrite lindex_mid.
  2: { apply NoDup_remove_2 in ND. intros H. apply ND, in_app_iff. auto. }
  cbn [bind]. rewrite app_length. cbn [List.length].
  destruct (Nat.eqb_spec (List.length (map r_block pre)) (List.length (map r_block pre) + S (List.length (map r_block post)) - 1)) as [E|N].
  - exists None. split; auto. split; auto. intros _. rewrite !map_length in E. destruct post; [reflexivity|simpl in E; lia].
  - rewrite !map_length in N. destruct post as [|x post]; [simpl in N; lia|].
    exists (Some (r_block x)). split; [|split; discriminate]. unfold lnth. cbn [map].
    rewrite nth_error_app2 by lia. replace (List.length (map r_block pre) + 1 - List.length (map r_block pre))%nat with 1%nat by lia.
    reflexivity.
Qed.

Section Stops.
Variables (td : train_dict) (st : station_blocks) (r : Z).
Hypothesis SA : stations_apart st.
Hypothesis BL : blocks_once st.
Hypothesis AN : all_annotated st td.
Hypothesis VO : all_visit_once td.
Hypothesis BO : all_blocks_once td.

Lemma annotated_runs t tt : runs td t tt -> annotated st tt.
Proof. intros (i & R). apply dget_in in R. exact (AN t i tt R). Qed.

(** What the entries of a station are *)
Definition stop_of (t : Z) (tt : table) (s : string) (es : list (string * Q) * list (string * Q)) : Prop :=
  (ends_at tt s -> es = ([], [])) /\
  (~ ends_at tt s -> exists row, In row tt /\ r_station row = Some s /\
     fst es = [(key2 t s, round_if r (qsum [time_of row]))] /\
     snd es = match r_turn row with Some p => [(key2 t s, p)] | None => [] end).

Lemma one_stop t tt i s : runs td t tt -> nth_error (train_important_stations tt) i = Some s ->
  exists es, stop_entries td st r t (List.length (train_important_stations tt)) (i, s) = Ok es /\ stop_of t tt s es.
Proof.
  intros R HI. assert (P : passes tt s) by (apply stations_in; eapply nth_error_In; exact HI).
  assert (V := VO t tt R). assert (N := BO t tt R). assert (A := annotated_runs t tt R).
  pose proof P as (row & Hrow & Erow). pose proof Hrow as Hs. apply in_split in Hs as (pre & post & E).
  destruct (station_listed st tt row s A Hrow Erow) as (bs & HS).
  assert (BK : blocks_list_4station tt s st = Ok [r_block row]).
  { rewrite (track_read td st s bs t tt (proj1 SA) HS R P). f_equal. apply (track_single td st s bs t tt row); auto. }
  pose proof R as T. apply time_table_ok in T.
  assert (SK : exists skip, (if Nat.eqb i (List.length (train_important_stations tt) - 1) then
       do tt <- train_time_table td t; do bs <- blocks_list_4station tt s st; do b <- lnth bs 0;
       do n <- subsequent_block (path_of tt) b; Ok (match n with None => true | Some _ => false end)
     else Ok false) = Ok skip /\ (skip = true <-> ends_at tt s)).
  { pose proof (last_row tt pre row post s V E Erow) as LR. destruct (Nat.eqb_spec i (List.length (train_important_stations tt) - 1)) as [EI|NI].
    - rewrite T. cbn [bind]. rewrite BK. cbn [bind lnth nth_error].
      destruct (next_block tt pre row post N E) as (o & EO & IO). rewrite EO. cbn [bind].
      exists (match o with None => true | Some _ => false end). split; auto. rewrite LR, <- IO. destruct o; split; congruence.
    - exists false. split; auto. split; [discriminate|]. intros EA. apply LR in EA. subst post. exfalso. apply NI.
      assert (ES : train_important_stations tt = train_important_stations pre ++ [s]).
      { rewrite E, stations_app. simpl. rewrite Erow. reflexivity. }
      assert (ND : NoDup (train_important_stations tt)) by (apply visits_once_nodup; exact V).
      rewrite ES in *. rewrite app_length. cbn [List.length].
      assert (LT : (i < List.length (train_important_stations pre ++ [s]))%nat) by (apply nth_error_Some; congruence).
      assert (X : nth_error (train_important_stations pre ++ [s]) (List.length (train_important_stations pre)) = Some s).
      { rewrite nth_error_app2 by lia. rewrite Nat.sub_diag. reflexivity. }
      rewrite (proj1 (NoDup_nth_error _) ND i (List.length (train_important_stations pre)) LT); [lia|congruence]. }
  destruct SK as (skip & ESK & IS). unfold stop_entries. cbn [fst snd]. rewrite ESK. cbn [bind]. destruct skip.
  - eexists. split; [reflexivity|]. split; [reflexivity|]. intros X. exfalso. apply X, IS. reflexivity.
  - assert (NE : ~ ends_at tt s) by (intros X; apply IS in X; discriminate).
    unfold stop_time. rewrite T. cbn [bind]. rewrite BK. cbn [bind lnth nth_error]. rewrite (row_found tt row N Hrow). cbn [bind].
    cbn [mapM]. rewrite (block_time tt row N Hrow). cbn [bind]. cbv zeta.
    destruct (r_turn row) as [p|] eqn:TR; cbn [bind]; eexists; (split; [reflexivity|]); (split; [contradiction|]); intros _;
      exists row; rewrite TR; (split; [exact Hrow|]); (split; [exact Erow|]); split; reflexivity.
Qed.

Lemma one_row tt s row row' : visits_once tt -> In row tt -> In row' tt -> r_station row = Some s -> r_station row' = Some s -> row = row'.
Proof.
  intros V H H' E E'. apply in_split in H as (p & q & EQ). apply in_split in H' as (p' & q' & EQ').
  destruct (row_unique tt p row q p' row' q' s V EQ EQ' E E') as (_ & A & _). exact A.
Qed.

(** What is put in the two tables *)
Definition stays (trains : option (list Z)) (t : Z) (tt : table) (s : string) (row : row) : Prop :=
  wanted td trains t /\ runs td t tt /\ In row tt /\ r_station row = Some s /\ ~ ends_at tt s.

Lemma all_stops trains : (forall t, wanted td trains t -> In t (dkeys td)) ->
  exists stop prep, get_taus_stop td st trains r = Ok (dupdate [] stop, dupdate [] prep) /\
    (forall k q, In (k, q) stop <-> exists t tt s row, stays trains t tt s row /\ k = key2 t s /\ q = round_if r (qsum [time_of row])) /\
    (forall k q, In (k, q) prep <-> exists t tt s row, stays trains t tt s row /\ k = key2 t s /\ r_turn row = Some q).
Proof.
  intros WK. unfold get_taus_stop.
  set (l := match trains with Some l => l | None => dkeys (get_Paths td) end).
  assert (WL : forall t, In t l <-> wanted td trains t).
  { intros t. unfold l, wanted. destruct trains; [tauto|].
    assert (K : dkeys (get_Paths td) = dkeys td) by (unfold get_Paths, dkeys; rewrite map_map; reflexivity).
    rewrite K. tauto. }
  cbv zeta. destruct (paths_fold td st r l (false, ([], []))) as (f & EF). rewrite EF. clear EF. cbn [fst snd].
  set (F := fun t => do path <- dlookup t (get_Paths td);
                     do ess <- mapM (stop_entries td st r t (List.length path)) (combine (seq 0 (List.length path)) path);
                     Ok (both ess)).
  assert (FT : forall t, In t l -> exists tt es, runs td t tt /\ F t = Ok es /\
     (forall k q, In (k, q) (fst es) <-> exists s row, stays trains t tt s row /\ k = key2 t s /\ q = round_if r (qsum [time_of row])) /\
     (forall k q, In (k, q) (snd es) <-> exists s row, stays trains t tt s row /\ k = key2 t s /\ r_turn row = Some q)).
  { intros t Ht. assert (W : wanted td trains t) by (apply WL; exact Ht).
    apply WL, WK, in_keys_runs in Ht as (tt & R). exists tt. unfold F.
    assert (P : dlookup t (get_Paths td) = Ok (train_important_stations tt)).
    { apply dlookup_ok. rewrite paths_get. destruct R as (i & ->). reflexivity. }
    rewrite P. cbn [bind].
    assert (CB : forall i s, In (i, s) (combine (seq 0 (List.length (train_important_stations tt))) (train_important_stations tt)) <->
        nth_error (train_important_stations tt) i = Some s).
    { intros i s. generalize (train_important_stations tt). clear. intros l.
      assert (G : forall l k, In (i, s) (combine (seq k (List.length l)) l) <-> (k <= i)%nat /\ nth_error l (i - k) = Some s).
      { clear. induction l as [|x l IH]; intros k; cbn [List.length seq combine In].
        - split; [tauto|]. intros [_ H]. destruct (i - k)%nat; discriminate.
        - rewrite IH. split.
          + intros [E|[A B]]; [inversion E; subst; split; auto; rewrite Nat.sub_diag; reflexivity|]. split; [lia|].
            replace (i - k)%nat with (S (i - S k)) by lia. exact B.
          + intros [A B]. destruct (Nat.eq_dec i k) as [->|N]; [left; rewrite Nat.sub_diag in B; inversion B; reflexivity|].
            right. split; [lia|]. replace (i - k)%nat with (S (i - S k)) in B by lia. exact B. }
      rewrite G, Nat.sub_0_r. split; [tauto|]. intros H; split; [lia|exact H]. }
    destruct (mapM_total (stop_entries td st r t (List.length (train_important_stations tt)))
       (combine (seq 0 (List.length (train_important_stations tt))) (train_important_stations tt))) as (ess & M).
    { intros [i s] H. apply CB in H. destruct (one_stop t tt i s R H) as (es & E & _). eauto. }
    rewrite M. cbn [bind]. eexists. split; auto. split; [reflexivity|]. apply mapM_ok in M.
    assert (EX : forall es, In es ess <-> exists i s, nth_error (train_important_stations tt) i = Some s /\
       stop_entries td st r t (List.length (train_important_stations tt)) (i, s) = Ok es).
    { intros es. split.
      - intros H. destruct (Forall2_in_r _ _ _ _ M H) as ([i s] & H1 & H2). apply CB in H1. eauto.
      - intros (i & s & H1 & H2). apply CB in H1. destruct (Forall2_in_l _ _ _ _ M H1) as (y & H3 & H4). congruence. }
    assert (ST : forall s row, In row tt -> r_station row = Some s -> ~ ends_at tt s -> exists es, In es ess /\
       fst es = [(key2 t s, round_if r (qsum [time_of row]))] /\
       snd es = match r_turn row with Some p => [(key2 t s, p)] | None => [] end).
    { intros s row H1 H2 H3. assert (PS : In s (train_important_stations tt)) by (apply stations_in; exists row; auto).
      apply In_nth_error in PS as (i & HI). destruct (one_stop t tt i s R HI) as (es & E & SO). exists es. split; [apply EX; eauto|].
      destruct SO as [_ SO]. destruct (SO H3) as (row' & A & B & C & D).
      rewrite <- (one_row tt s row' row (VO t tt R) A H1 B H2). auto. }
    assert (ST' : forall es, In es ess -> es = ([], []) \/ exists s row, stays trains t tt s row /\
       fst es = [(key2 t s, round_if r (qsum [time_of row]))] /\
       snd es = match r_turn row with Some p => [(key2 t s, p)] | None => [] end).
    { intros es H. apply EX in H as (i & s & HI & E). destruct (one_stop t tt i s R HI) as (es' & E' & SO).
      rewrite E in E'. inversion E'; subst es'. destruct SO as [S1 S2].
      assert (PS : passes tt s) by (apply stations_in; eapply nth_error_In; exact HI).
      destruct PS as (row & Hr & Er). pose proof Hr as Hs. apply in_split in Hs as (pre & post & EQ).
      destruct post as [|x post].
      - left. apply S1. exists pre, row. auto.
      - right. assert (NE : ~ ends_at tt s) by (rewrite (last_row tt pre row (x :: post) s (VO t tt R) EQ Er); discriminate).
        destruct (S2 NE) as (row' & A & B & C & D). exists s, row'. split; [repeat split; auto|]. auto. }
    unfold both. cbn [fst snd]. split; intros k q; rewrite in_concat; split.
    - intros (x & Hx & I). apply in_map_iff in Hx as (es & <- & H). destruct (ST' es H) as [->|(s & row & S & E1 & _)]; [destruct I|].
      rewrite E1 in I. destruct I as [I|[]]. inversion I; subst. exists s, row. auto.
    - intros (s & row & (_ & _ & H1 & H2 & H3) & -> & ->). destruct (ST s row H1 H2 H3) as (es & H & E1 & _).
      exists (fst es). split; [apply in_map; exact H|]. rewrite E1. left. reflexivity.
    - intros (x & Hx & I). apply in_map_iff in Hx as (es & <- & H). destruct (ST' es H) as [->|(s & row & S & _ & E2)]; [destruct I|].
      rewrite E2 in I. destruct (r_turn row) as [p|] eqn:TR; [|destruct I]. destruct I as [I|[]]. inversion I; subst. exists s, row. auto.
    - intros (s & row & (_ & _ & H1 & H2 & H3) & -> & TR). destruct (ST s row H1 H2 H3) as (es & H & _ & E2).
      exists (snd es). split; [apply in_map; exact H|]. rewrite E2, TR. left. reflexivity. }
  destruct (mapM_total F l) as (ess & M).
  { intros t Ht. destruct (FT t Ht) as (tt & es & _ & E & _). eauto. }
  change (fun t => do path <- dlookup t (get_Paths td);
                     do ess <- mapM (stop_entries td st r t (List.length path)) (combine (seq 0 (List.length path)) path);
                     Ok (both ess)) with F. rewrite M. cbn [bind snd].
  eexists; eexists. split; [reflexivity|]. apply mapM_ok in M.
  assert (EX : forall es, In es ess <-> exists t, In t l /\ F t = Ok es).
  { intros es. split.
    - intros H. destruct (Forall2_in_r _ _ _ _ M H) as (t & H1 & H2). eauto.
    - intros (t & H1 & H2). destruct (Forall2_in_l _ _ _ _ M H1) as (y & H3 & H4). congruence. }
  unfold both. cbn [fst snd]. split; intros k q; rewrite in_concat; split.
  - intros (x & Hx & I). apply in_map_iff in Hx as (es & <- & H). apply EX in H as (t & Ht & E).
    destruct (FT t Ht) as (tt & es' & R & E' & X & _). rewrite E in E'. inversion E'; subst es'.
    destruct (proj1 (X k q) I) as (s & row & A). exists t, tt, s, row. exact A.
  - intros (t & tt & s & row & S & A). pose proof S as (W & R & _). apply WL in W. destruct (FT t W) as (tt' & es & R' & E & X & _).
    exists (fst es). split; [apply in_map, EX; eauto|]. apply X. rewrite (runs_fun _ _ _ _ R' R). exists s, row. auto.
  - intros (x & Hx & I). apply in_map_iff in Hx as (es & <- & H). apply EX in H as (t & Ht & E).
    destruct (FT t Ht) as (tt & es' & R & E' & _ & X). rewrite E in E'. inversion E'; subst es'.
    destruct (proj1 (X k q) I) as (s & row & A). exists t, tt, s, row. exact A.
  - intros (t & tt & s & row & S & A). pose proof S as (W & R & _). apply WL in W. destruct (FT t W) as (tt' & es & R' & E & _ & X).
    exists (snd es). split; [apply in_map, EX; eauto|]. apply X. rewrite (runs_fun _ _ _ _ R' R). exists s, row. auto.
Qed.

End Stops.

(** The stopping times never have the turnaround time in them; it is in the second table, for
    every station of every train that the train goes on from.  At a train's first station this
    is what the claim asks for; at the others it is refuted below. *)
Theorem C38_tables_partial : forall td st trains r,
  stations_apart st -> blocks_once st -> all_annotated st td -> all_visit_once td -> all_blocks_once td ->
  (forall t, wanted td trains t -> In t (dkeys td)) ->
  exists stop prep, get_taus_stop td st trains r = Ok (stop, prep) /\
    (forall t tt s row, wanted td trains t -> runs td t tt -> In row tt -> r_station row = Some s -> ~ ends_at tt s ->
       (exists q, dget (str_of_Z t ++ "_" ++ s)%string stop = Some q /\ in_resolution r (time_of row) q) /\
       dget (str_of_Z t ++ "_" ++ s)%string prep = r_turn row) /\
    (forall k, In k (dkeys stop) \/ In k (dkeys prep) ->
       exists t tt s, wanted td trains t /\ runs td t tt /\ passes tt s /\ ~ ends_at tt s /\ k = (str_of_Z t ++ "_" ++ s)%string).
Proof.
  intros td st trains r SA BL AN VO BO WK. destruct (all_stops td st r SA BL AN VO BO trains WK) as (stop & prep & E & I1 & I2).
  eexists; eexists. split; [exact E|].
  assert (UQ : forall t tt s row t' tt' s' row', stays td trains t tt s row -> stays td trains t' tt' s' row' ->
     key2 t s = key2 t' s' -> row = row').
  { intros t tt s row t' tt' s' row' (_ & R & H & Er & _) (_ & R' & H' & Er' & _) K. apply key2_inj in K as [-> ->].
    rewrite (runs_fun _ _ _ _ R R') in H. exact (one_row _ _ _ _ (VO _ _ R') H H' Er Er'). }
  split.
  - intros t tt s row W R Hr Er NE. assert (S : stays td trains t tt s row) by (repeat split; auto). split.
    + exists (round_if r (qsum [time_of row])). split.
      * apply entries_get.
        { intros v v' A B. apply I1 in A as (t1 & tt1 & s1 & r1 & S1 & K1 & ->). apply I1 in B as (t2 & tt2 & s2 & r2 & S2 & K2 & ->).
          rewrite (UQ _ _ _ _ _ _ _ _ S1 S2); [reflexivity|congruence]. }
        apply I1. exists t, tt, s, row. auto.
      * eapply in_resolution_eq; [|apply round_ok]. simpl. lra.
    + destruct (r_turn row) as [p|] eqn:TR.
      * apply entries_get.
        { intros v v' A B. apply I2 in A as (t1 & tt1 & s1 & r1 & S1 & K1 & T1). apply I2 in B as (t2 & tt2 & s2 & r2 & S2 & K2 & T2).
          rewrite (UQ _ _ _ _ _ _ _ _ S1 S2) in T1; [congruence|congruence]. }
        apply I2. exists t, tt, s, row. auto.
      * destruct (dget (str_of_Z t ++ "_" ++ s)%string (dupdate [] prep)) as [p|] eqn:D; auto. exfalso.
        apply dupdate_get in D as [D|D]; [discriminate|]. apply I2 in D as (t1 & tt1 & s1 & r1 & S1 & K1 & T1).
        rewrite (UQ _ _ _ _ _ _ _ _ S1 S) in T1 by (symmetry; exact K1). congruence.
  - intros k [H|H].
    + destruct (dget k (dupdate [] stop)) as [q|] eqn:D; [|apply dget_none in D; contradiction].
      apply dupdate_get in D as [D|D]; [discriminate|]. apply I1 in D as (t & tt & s & row & (A & B & C & F & G) & -> & _).
      exists t, tt, s. repeat split; auto. exists row. auto.
    + destruct (dget k (dupdate [] prep)) as [q|] eqn:D; [|apply dget_none in D; contradiction].
      apply dupdate_get in D as [D|D]; [discriminate|]. apply I2 in D as (t & tt & s & row & (A & B & C & F & G) & -> & _).
      exists t, tt, s. repeat split; auto. exists row. auto.
Qed.
Print Assumptions C38_tables_partial.

(** ** Preparation times at first stations *)

Lemma first_stop_ok tt s : nth_error (train_important_stations tt) 0 = Some s -> exists r, first_stop tt s r.
Proof.
  induction tt as [|x tt IH]; simpl; [discriminate|]. destruct (r_station x) as [s'|] eqn:E.
  - intros H. inversion H; subst. exists x, [], tt. split; auto. split; [intros y []|auto].
  - intros H. destruct (IH H) as (r & pre & post & -> & N & Er). exists r, (x :: pre), post. split; auto. split; auto.
    intros y [<-|Hy]; auto.
Qed.

Lemma first_stop_nth tt s r : first_stop tt s r -> nth_error (train_important_stations tt) 0 = Some s.
Proof.
  intros (pre & post & -> & N & E). rewrite stations_app, (proj2 (stations_nil pre) N). simpl. rewrite E. reflexivity.
Qed.

Lemma first_stop_in tt s r : first_stop tt s r -> In r tt /\ r_station r = Some s.
Proof. intros (pre & post & -> & _ & E). split; auto. apply in_app_iff. right. left. reflexivity. Qed.

(** get_taus_prep has the turnaround time of each train at its first station, if it is not 0
    (in the given resolution), and nothing else. *)
Theorem C38_first : forall td st r,
  NoDup (dkeys td) -> stations_apart st -> blocks_once st -> all_annotated st td -> all_visit_once td -> all_blocks_once td ->
  (forall t tt, runs td t tt -> exists s, passes tt s) ->
  exists d, get_taus_prep td st r = Ok d /\
    (forall t tt s row, runs td t tt -> first_stop tt s row ->
       exists q, in_resolution r (turn_of row) q /\
         ((~ q == 0 /\ dget (str_of_Z t ++ "_" ++ s)%string d = Some q) \/
          (q == 0 /\ dget (str_of_Z t ++ "_" ++ s)%string d = None))) /\
    (forall k, In k (dkeys d) -> exists t tt s row, runs td t tt /\ first_stop tt s row /\ k = (str_of_Z t ++ "_" ++ s)%string).
Proof.
  intros td st r ND SA BL AN VO BO ST. unfold get_taus_prep.
  set (F := fun e : Z * list string => do s <- lnth (snd e) 0; do tt <- train_time_table td (fst e); do t <- turn_around_time tt s st r;
     Ok (if Qeq_bool t 0 then [] else [(key2 (fst e) s, t)])).
  rewrite (fold_entries _ F).
  2: { intros d e _. unfold F. destruct (lnth (snd e) 0) as [s|]; [|reflexivity]. cbn [bind].
       destruct (train_time_table td (fst e)) as [tt|]; [|reflexivity]. cbn [bind].
       destruct (turn_around_time tt s st r) as [q|]; [|reflexivity]. cbn [bind]. destruct (Qeq_bool q 0); reflexivity. }
  assert (FT : forall e, In e (get_Paths td) -> exists tt s row, runs td (fst e) tt /\ first_stop tt s row /\
     F e = Ok (if Qeq_bool (round_if r (turn_of row)) 0 then [] else [(key2 (fst e) s, round_if r (turn_of row))])).
  { intros [t sts] He. unfold get_Paths in He. apply in_map_iff in He as ([t' [i tt]] & EQ & Hin). inversion EQ; subst. clear EQ. cbn [fst snd].
    assert (R : runs td t tt) by (exists i; apply in_dget; auto).
    destruct (ST t tt R) as (s0 & P0). apply stations_in in P0.
    destruct (nth_error (train_important_stations tt) 0) as [s|] eqn:N0; [|destruct (train_important_stations tt); [destruct P0|discriminate]].
    destruct (first_stop_ok tt s N0) as (row & FS). exists tt, s, row. split; auto. split; auto.
    unfold F. cbn [fst snd]. unfold lnth. rewrite N0. cbn [bind]. pose proof R as T. apply time_table_ok in T. rewrite T. cbn [bind].
    destruct (first_stop_in tt s row FS) as [Hr Er]. unfold turn_around_time.
    assert (A := annotated_runs td st AN t tt R). destruct (station_listed st tt row s A Hr Er) as (bs & HS).
    rewrite (track_read td st s bs t tt (proj1 SA) HS R) by (exists row; auto).
    rewrite (track_single td st s bs t tt row) by (auto; apply (VO t tt R)). cbn [bind lnth nth_error].
    rewrite (row_found tt row (BO t tt R) Hr). cbn [bind]. reflexivity. }
  destruct (mapM_total F (get_Paths td)) as (ess & M).
  { intros e He. destruct (FT e He) as (tt & s & row & _ & _ & E). eauto. }
  rewrite M. cbn [bind]. eexists. split; [reflexivity|].
  assert (IN : forall k q, In (k, q) (List.concat ess) <-> exists t tt s row, runs td t tt /\ first_stop tt s row /\ k = key2 t s /\
     q = round_if r (turn_of row) /\ Qeq_bool q 0 = false).
  { intros k q. rewrite (mapM_concat_in _ _ _ (k, q) M). split.
    - intros (e & es & He & E & I). destruct (FT e He) as (tt & s & row & R & FS & E'). rewrite E in E'. inversion E'; subst es.
      destruct (Qeq_bool (round_if r (turn_of row)) 0) eqn:Z0; [destruct I|]. destruct I as [I|[]]. inversion I; subst.
      exists (fst e), tt, s, row. auto.
    - intros (t & tt & s & row & R & FS & -> & -> & Z0). pose proof R as (i & D). apply dget_in in D.
      assert (He : In (t, train_important_stations tt) (get_Paths td)).
      { unfold get_Paths. apply in_map_iff. exists (t, (i, tt)). auto. }
      destruct (FT _ He) as (tt' & s' & row' & R' & FS' & E). cbn [fst] in *. rewrite (runs_fun _ _ _ _ R' R) in *.
      assert (s' = s) by (apply first_stop_nth in FS; apply first_stop_nth in FS'; congruence). subst s'.
      destruct (first_stop_in _ _ _ FS) as [H1 H2]. destruct (first_stop_in _ _ _ FS') as [H1' H2'].
      rewrite (one_row tt s row' row (VO t tt R) H1' H1 H2' H2) in E. rewrite Z0 in E.
      do 2 eexists. split; [exact He|]. split; [exact E|]. left. reflexivity. }
  assert (UQ : forall k v v', In (k, v) (List.concat ess) -> In (k, v') (List.concat ess) -> v = v').
  { intros k v v' A B. apply IN in A as (t & tt & s & row & R & FS & K & -> & _). apply IN in B as (t' & tt' & s' & row' & R' & FS' & K' & -> & _).
    rewrite K in K'. apply key2_inj in K' as [<- <-]. rewrite (runs_fun _ _ _ _ R' R) in *.
    destruct (first_stop_in _ _ _ FS) as [H1 H2]. destruct (first_stop_in _ _ _ FS') as [H1' H2'].
    rewrite (one_row tt s row' row (VO t tt R) H1' H1 H2' H2). reflexivity. }
  split.
  - intros t tt s row R FS. exists (round_if r (turn_of row)). split; [apply round_ok|].
    destruct (Qeq_bool (round_if r (turn_of row)) 0) eqn:Z0.
    + right. split; [apply Qeq_bool_iff; exact Z0|].
      destruct (dget (str_of_Z t ++ "_" ++ s)%string (dupdate [] (List.concat ess))) as [q|] eqn:D; auto. exfalso.
      apply dupdate_get in D as [D|D]; [discriminate|]. apply IN in D as (t' & tt' & s' & row' & R' & FS' & K' & -> & ZF).
      change (str_of_Z t ++ "_" ++ s)%string with (key2 t s) in K'. apply key2_inj in K' as [<- <-]. rewrite (runs_fun _ _ _ _ R' R) in *.
      destruct (first_stop_in _ _ _ FS) as [H1 H2]. destruct (first_stop_in _ _ _ FS') as [H1' H2'].
      rewrite (one_row tt s row' row (VO t tt R) H1' H1 H2' H2) in ZF. congruence.
    + left. split; [intros X; apply Qeq_bool_iff in X; congruence|]. apply entries_get; [apply UQ|]. apply IN.
      exists t, tt, s, row. auto.
  - intros k H. destruct (dget k (dupdate [] (List.concat ess))) as [q|] eqn:D; [|apply dget_none in D; contradiction].
    apply dupdate_get in D as [D|D]; [discriminate|]. apply IN in D as (t & tt & s & row & R & FS & -> & _). exists t, tt, s, row. auto.
Qed.
Print Assumptions C38_first.

(** Train 11 of the example (A, B, C) has a turnaround of 6 minutes at B, its second station.  The
    stopping time there is that of the block alone. *)
Theorem C38_lost_refuted : exists td st t tt pre row post s stop prep q,
  stations_apart st /\ blocks_once st /\ all_annotated st td /\ all_visit_once td /\ all_blocks_once td /\
  runs td t tt /\ tt = pre ++ row :: post /\ r_station row = Some s /\
  (exists x, In x pre /\ r_station x <> None) /\ (exists x, In x post /\ r_station x <> None) /\
  get_taus_stop td st None 0 = Ok (stop, prep) /\ dget (str_of_Z t ++ "_" ++ s)%string stop = Some q /\
  ~ q == time_of row + turn_of row.
Proof.
  destruct run_ok as (A & B & C & D & E & F & G).
  exists run_td, abc_st, 11%Z, run_tt, (firstn 4 run_tt), (timed "b1" (Some "B") (1 # 2) (Some 6)), (skipn 5 run_tt), "B".
  do 3 eexists. split; [apply abc_apart|]. split; [apply abc_blocks_once|]. split; auto. split; auto. split; auto.
  split; [eexists; reflexivity|]. split; [reflexivity|]. split; [reflexivity|].
  split; [exists (timed "a1" (Some "A") 1 (Some 4)); split; [simpl; auto|discriminate]|].
  split; [exists (timed "c1" (Some "C") 1 None); split; [simpl; auto|discriminate]|].
  split; [vm_compute; reflexivity|]. split; [vm_compute; reflexivity|]. vm_compute. discriminate.
Qed.
Print Assumptions C38_lost_refuted.

Example C38_case :
  get_taus_stop run_td abc_st None 1 = Ok ([("11_A", inject_Z 1); ("11_B", inject_Z 0)], [("11_A", 4); ("11_B", 6)])%Q /\
  get_taus_prep run_td abc_st 1 = Ok [("11_A", inject_Z 4)].
Proof. split; vm_compute; reflexivity. Qed.
