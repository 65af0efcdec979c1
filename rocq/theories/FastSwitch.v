(** * FastSwitch: the pairs at switches computed with the switches of each train found once, and
    that this is what [jswitch] gives (used to compute on the tables of the repository) *)

From Coq Require Import List String ZArith QArith Bool.
From Verif Require Import Base BaseFacts Pulp Helpers LinearSolver DataTables DataSets DataTimes Pipeline SetFacts PropsSwitch.
Import ListNotations.

Definition of_train (td : train_dict) (st : station_blocks) (net : list netrow) (s : string) (j : Z)
  : res (Z * (table * (list Z * list Z))) :=
  do tj <- train_time_table td j;
  do b <- blocks_list_4station tj s st;
  do i <- z_in net s (train_important_stations tj) b (path_of tj);
  do o <- z_out net s (train_important_stations tj) b (path_of tj);
  Ok (j, (tj, (i, o))).

Definition fast_pair (s : string) (p : (Z * (table * (list Z * list Z))) * (Z * (table * (list Z * list Z))))
  : res (list (dict Z string)) :=
  let '((j, (tj, (i, o))), (j', (tj', (i', o')))) := p in
  if negb (lmem s non_repeating_singles) then make_jswitch_dict tj tj' s j j' i i' o o' else Ok [].

Definition fast_station td st net s :=
  do trains <- dlookup s (get_trains_at_station td st false);
  do ms <- mapM (of_train td st net s) trains;
  foldM (fun vec p => do new <- fast_pair s p; Ok (vec ++ new)) (combinations2 ms) [].

Definition fast_jswitch td st net imp :=
  foldM (fun d s => do v <- fast_station td st net s; Ok (dset s v d)) (imp_stations_list st imp) [].

Lemma combinations2_map {A B} (f : A -> B) l :
  combinations2 (map f l) = map (fun p => (f (fst p), f (snd p))) (combinations2 l).
Proof.
  induction l as [|x l IH]; [reflexivity|]. cbn. rewrite map_app, IH, !map_map. reflexivity.
Qed.

Lemma combinations2_in {A} (l : list A) p : In p (combinations2 l) -> In (fst p) l /\ In (snd p) l.
Proof.
  induction l as [|x l IH]; intros I; [destruct I|]. cbn in I. apply in_app_or in I as [I|I].
  - apply in_map_iff in I as (y & <- & I). cbn. auto.
  - apply IH in I as [I1 I2]. cbn. auto.
Qed.

Lemma foldM_map {A B C} (g : A -> B) (f : C -> B -> res C) l : forall a,
  foldM f (map g l) a = foldM (fun c x => f c (g x)) l a.
Proof. induction l as [|x l IH]; intros a; [reflexivity|]. cbn. destruct (f a (g x)); [apply IH|reflexivity]. Qed.

Lemma mapM_all {A B} (f : A -> res B) l : forall r, mapM f l = Ok r -> Forall2 (fun x y => f x = Ok y) l r.
Proof.
  induction l as [|x l IH]; intros r E; cbn in E; [inversion E; constructor|].
  destruct (f x) as [y|] eqn:F; [|discriminate]. cbn [bind] in E. destruct (mapM f l) as [ys|]; [|discriminate]. inversion E. subst.
  constructor; [exact F|apply IH; reflexivity].
Qed.

Lemma fast_station_ok td st net s v : fast_station td st net s = Ok v -> station_entries td st net s = Ok v.
Proof.
  unfold fast_station, station_entries. destruct (dlookup s _) as [trains|]; [|discriminate]. cbn [bind].
  destruct (mapM (of_train td st net s) trains) as [ms|] eqn:M; [|discriminate]. cbn [bind]. intros E.
  apply mapM_all in M.
  assert (T : trains = map fst ms).
  { clear E. induction M as [|x y l l' H M IH]; [reflexivity|]. cbn. rewrite IH. f_equal. unfold of_train in H.
    destruct (train_time_table td x); [|discriminate]. cbn [bind] in H. destruct (blocks_list_4station a s st); [|discriminate].
    cbn [bind] in H. destruct (z_in _ _ _ _ _); [|discriminate]. cbn [bind] in H. destruct (z_out _ _ _ _ _); [|discriminate].
    inversion H. reflexivity. }
  assert (O : forall m, In m ms -> of_train td st net s (fst m) = Ok m).
  { rewrite T in M. clear E T. remember (map fst ms) as tr eqn:X. revert ms X M. induction tr as [|x tr IH]; intros [|m ms] X M z I; try discriminate; [destruct I|].
    cbn in X. inversion X. subst. inversion M. subst. destruct I as [<-|I]; [assumption|]. apply (IH ms eq_refl); assumption. }
  assert (G : forall j tj b, In j trains -> train_time_table td j = Ok tj -> blocks_list_4station tj s st = Ok b ->
    forall bl, Forall2 (fun x y => (do t <- train_time_table td x; do c <- blocks_list_4station t s st; Ok (x, c)) = Ok y) trains bl ->
    dlookup j bl = Ok b).
  { intros j tj b I Ej Eb. revert I. generalize trains. intros l. induction l as [|x l IH]; intros I bl F; [destruct I|].
    inversion F as [|? y ? ys H F' ]. subst. unfold dlookup. cbn.
    destruct (train_time_table td x) as [tx|] eqn:Ex; [|discriminate]. cbn [bind] in H.
    destruct (blocks_list_4station tx s st) as [c|] eqn:Ec; [|discriminate]. cbn [bind] in H. inversion H. subst. cbn.
    destruct (eq_dec j x) as [J|J].
    - rewrite J, Ex in Ej. inversion Ej. subst. congruence.
    - destruct I as [I|I]; [congruence|]. specialize (IH I ys F'). unfold dlookup in IH. exact IH. }
  assert (Bm : exists bl, mapM (fun j => do tj <- train_time_table td j; do b <- blocks_list_4station tj s st; Ok (j, b)) trains = Ok bl).
  { clear E T O G. induction M as [|x y l l' H M [bl IH]]; [exists []; reflexivity|]. cbn [mapM]. rewrite IH.
    unfold of_train in H. destruct (train_time_table td x); [|discriminate]. cbn [bind] in *.
    destruct (blocks_list_4station a s st); [|discriminate]. cbn [bind]. eexists. reflexivity. }
  destruct Bm as [bl Bm]. rewrite Bm. cbn [bind]. apply mapM_all in Bm.
  rewrite <- E. rewrite T at 1. rewrite combinations2_map, foldM_map. apply foldM_ext. intros vec p I.
  apply combinations2_in in I as [I1 I2]. destruct p as [m m']. cbn [fst snd] in *.
  assert (J1 : In (fst m) trains) by (rewrite T; apply in_map; exact I1).
  assert (J2 : In (fst m') trains) by (rewrite T; apply in_map; exact I2).
  apply O in I1, I2. unfold of_train in I1, I2. unfold pair_entries. cbn [fst snd].
  destruct (train_time_table td (fst m)) as [t1|] eqn:E1; [|discriminate]. cbn [bind] in *.
  destruct (train_time_table td (fst m')) as [t2|] eqn:E2; [|discriminate]. cbn [bind] in *.
  destruct (blocks_list_4station t1 s st) as [b1|] eqn:B1; [|discriminate]. cbn [bind] in *.
  destruct (blocks_list_4station t2 s st) as [b2|] eqn:B2; [|discriminate]. cbn [bind] in *.
  rewrite (G _ _ _ J1 E1 B1 bl Bm), (G _ _ _ J2 E2 B2 bl Bm). cbn [bind].
  destruct (z_in net s _ b1 _); [|discriminate]. cbn [bind] in *. destruct (z_out net s _ b1 _); [|discriminate]. cbn [bind] in *.
  destruct (z_in net s _ b2 _); [|discriminate]. cbn [bind] in *. destruct (z_out net s _ b2 _); [|discriminate]. cbn [bind] in *.
  inversion I1 as [X1]. inversion I2 as [X2]. destruct m, m'. cbn [fst] in *. inversion X1. inversion X2. subst. reflexivity.
Qed.

Lemma fast_jswitch_ok td st net imp d : fast_jswitch td st net imp = Ok d -> jswitch td st net imp = Ok d.
Proof.
  rewrite jswitch_entries. unfold fast_jswitch. generalize (@nil (string * list (dict Z string))) as acc.
  induction (imp_stations_list st imp) as [|s l IH]; intros acc E; [exact E|]. cbn in E |- *.
  destruct (fast_station td st net s) as [v|] eqn:F; [|discriminate]. rewrite (fast_station_ok _ _ _ _ _ F). cbn [bind] in *.
  apply IH. exact E.
Qed.

Definition fast_train_set (td : train_dict) (st : station_blocks) (net : list netrow)
    (skip_stations : dict Z string) : res train_sets :=
  do d <- jd td st None;
  do o <- josingle td st None;
  do r <- get_jround td st;
  do t <- jtrack td st None;
  do w <- fast_jswitch td st net None;
  Ok (MkTS
    (Some (map (fun e => (train (fst e), station (snd e))) skip_stations))
    (map (fun e => (train (fst e), map station (snd e))) (get_Paths td))
    (trains (get_J td))
    (map (fun e => (station (fst e),
        map (fun f => (station (fst f), map trains (snd f))) (snd e))) d)
    (map (fun e => ((station (fst (fst e)), station (snd (fst e))), map two_trains (snd e))) o)
    (map (fun e => (station (fst e), map two_trains (snd e))) r)
    (map (fun e => (station (fst e), map trains (snd e))) t)
    (map (fun e => (station (fst e),
        map (fun m => map (fun f => (train (fst f), PStr (snd f))) m) (snd e))) w)
    None).

Lemma fast_train_set_ok td st net sk ts : fast_train_set td st net sk = Ok ts -> make_train_set td st net sk = Ok ts.
Proof.
  unfold fast_train_set, make_train_set. destruct (jd td st None); [|discriminate]. cbn [bind].
  destruct (josingle td st None); [|discriminate]. cbn [bind]. destruct (get_jround td st); [|discriminate]. cbn [bind].
  destruct (jtrack td st None); [|discriminate]. cbn [bind]. destruct (fast_jswitch td st net None) as [w|] eqn:F; [|discriminate].
  rewrite (fast_jswitch_ok _ _ _ _ _ F). intros E. exact E.
Qed.

Definition fast_problem (td : train_dict) (st : station_blocks) (net : list netrow)
    (t_ref : string) (delays : list (Z * Q)) (d_max : Q) (cat : vcat)
  : res (train_sets * timetable * lpproblem) :=
  do skip_stations <- get_skip_stations td;
  do train_set <- fast_train_set td st net skip_stations;
  do timetable <- make_timetable td st skip_stations t_ref None;
  let timetable := with_delays delays timetable in
  do prob <- create_linear_problem train_set timetable d_max cat;
  Ok (train_set, timetable, prob).

Lemma fast_problem_ok td st net t delays d_max cat r :
  fast_problem td st net t delays d_max cat = Ok r -> tables_to_problem td st net t delays d_max cat = Ok r.
Proof.
  unfold fast_problem, tables_to_problem. destruct (get_skip_stations td) as [sk|]; [|discriminate]. cbn [bind].
  destruct (fast_train_set td st net sk) as [ts|] eqn:F; [|discriminate]. rewrite (fast_train_set_ok _ _ _ _ _ F).
  intros E. exact E.
Qed.
