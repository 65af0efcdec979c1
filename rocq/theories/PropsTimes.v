(** * PropsTimes: claims about running, stopping, preparation and headway times, schedules,
    initial conditions, delays and weights (C36, C37, C38, C44, C45, C46) *)

From Coq Require Import List String Ascii ZArith QArith Qabs Qround Bool Arith Lia Lqa.
From Verif Require Import Base BaseFacts DataTables DataSets DataTimes SpecTables SpecSets SpecDurations
  TableFacts SetFacts TimeFacts PropsTables PropsSets PropsSwitch.
Import ListNotations.
Open Scope string_scope.
Open Scope list_scope.

(** ** C36: running times *)

(** Between two stations the running time is that of the rows strictly between them. *)
Theorem C36_pass_partial : forall tt s s2 mid r,
  NoDup (map r_block tt) -> visits_once tt -> s <> "" -> goes tt s s2 mid ->
  exists q, minimal_passing_time tt s s2 r = Ok q /\ in_resolution r (running mid) q.
Proof.
  intros tt s s2 mid r ND V NE G. unfold minimal_passing_time.
  assert (E1 : eqb s "" = false) by (apply eqb_false; exact NE). rewrite E1.
  assert (M : lmem s2 (train_important_stations tt) = true).
  { destruct G as (pre & r1 & r2 & post & -> & _ & E2). apply lmem_true, stations_in. exists r2. split; auto.
    apply in_app_iff. right. right. apply in_app_iff. right. left. reflexivity. }
  rewrite M. cbn [negb andb]. rewrite (blocks_between tt s s2 mid V G). cbn [bind].
  destruct (block_times tt mid ND) as (ts & E & ->).
  { destruct G as (pre & r1 & r2 & post & -> & _). intros x Hx. apply in_app_iff. right. right. apply in_app_iff. auto. }
  rewrite E. cbn [bind]. eexists. split; [reflexivity|].
  eapply in_resolution_eq; [apply qsum_times|]. apply round_ok.
Qed.
Print Assumptions C36_pass_partial.

Lemma track_single td st s bs t tt r : stations_apart st -> blocks_once st -> In (s, bs) st ->
  annotated st tt -> visits_once tt -> runs td t tt -> In r tt -> r_station r = Some s ->
  track_of td bs t = [r_block r].
Proof.
  intros SA BO HS AN VO R Hr Er.
  assert (ROW : forall x, In x tt -> In (r_block x) bs -> r_station x = Some s).
  { intros x Hx Hb. apply (AN x s Hx). exists bs. auto. }
  assert (UQ : forall x, In x tt -> In (r_block x) bs -> x = r).
  { intros x Hx Hb. apply ROW in Hb; auto. apply in_split in Hr as (u & v & ->).
    apply in_app_iff in Hx as [Hx|[Hx|Hx]]; auto; exfalso; apply in_split in Hx as (u1 & u2 & EQ).
    - apply (VO u1 x u2 r v s); auto. rewrite EQ. assoc.
    - apply (VO u r u1 x u2 s); auto. rewrite EQ. reflexivity. }
  unfold track_of. destruct R as (i & ->). assert (NB := BO s bs HS).
  assert (IB : In (r_block r) bs).
  { apply (station_unique st s bs (r_block r) SA HS). apply (AN r s Hr). exact Er. }
  assert (C : forall b, In b bs -> (lmem b (path_of tt) = true <-> b = r_block r)).
  { intros b Hb. rewrite lmem_true, <- uses_path. split.
    - intros (x & Hx & Ex). subst b. rewrite (UQ x); auto.
    - intros ->. exists r. auto. }
  clear -C NB IB. induction bs as [|b bs IH]; [destruct IB|]. inversion NB; subst. simpl.
  destruct IB as [->|IB].
  - rewrite (proj2 (C _ (or_introl eq_refl)) eq_refl). f_equal. apply filter_none. intros x Hx.
    destruct (lmem x (path_of tt)) eqn:M; auto. exfalso. apply C in M; [|right; exact Hx]. subst. contradiction.
  - destruct (lmem b (path_of tt)) eqn:M.
    + apply C in M; [|left; reflexivity]. subst. contradiction.
    + apply IH; auto. intros x Hx. apply C. right. exact Hx.
Qed.

Lemma station_listed st tt r s : annotated st tt -> In r tt -> r_station r = Some s -> exists bs, In (s, bs) st.
Proof. intros AN Hr Er. apply (AN r s Hr) in Er as (bs & H & _). eauto. Qed.

(** At a station the stopping time is that of its row; a turnaround is added unless it is
    reported as preparation time *)
Theorem C36_stop_partial : forall td st t tt r s first res,
  stations_apart st -> blocks_once st -> annotated st tt -> visits_once tt -> NoDup (map r_block tt) ->
  runs td t tt -> In r tt -> r_station r = Some s ->
  exists q prep, stop_time t s td st first res = Ok (q, prep) /\
    in_resolution res (time_of r + (if first then 0 else turn_of r)) q /\
    (forall k p, dget k prep = Some p <-> first = true /\ k = (str_of_Z t ++ "_" ++ s)%string /\ r_turn r = Some p).
Proof.
  intros td st t tt r s first res SA BO AN V ND R Hr Er.
  destruct (station_listed st tt r s AN Hr Er) as (bs & HS).
  unfold stop_time. pose proof R as T. apply time_table_ok in T. rewrite T. cbn [bind].
  rewrite (track_read td st s bs t tt (proj1 SA) HS R) by (exists r; auto).
  rewrite (track_single td st s bs t tt r) by auto. cbn [bind lnth nth_error].
  rewrite (row_found tt r ND Hr). cbn [bind]. cbn [mapM]. rewrite (block_time tt r ND Hr). cbn [bind]. cbv zeta.
  assert (E : qsum [time_of r] == time_of r) by (simpl; lra).
  destruct (r_turn r) as [p|] eqn:TR.
  - assert (TV : turn_of r = p) by (unfold turn_of; rewrite TR; reflexivity).
    destruct first; eexists; eexists; (split; [reflexivity|]); split.
    + eapply in_resolution_eq; [|apply round_ok]. rewrite E. lra.
    + intros k v. cbn [dget]. destruct (eq_dec k (key2 t s)) as [->|N].
      * split; [intros X; inversion X; subst; auto|]. intros (_ & _ & X). exact X.
      * split; [discriminate|]. intros (_ & -> & _). exfalso. apply N. reflexivity.
    + eapply in_resolution_eq; [|apply round_ok]. rewrite E, TV. lra.
    + intros k v. cbn [dget]. split; [discriminate|]. intros (X & _). discriminate.
  - assert (TV : turn_of r = 0) by (unfold turn_of; rewrite TR; reflexivity).
    eexists; eexists; (split; [reflexivity|]); split.
    + eapply in_resolution_eq; [|apply round_ok]. rewrite E, TV. destruct first; lra.
    + intros k v. cbn [dget]. split; [discriminate|]. intros (_ & _ & X). discriminate.
Qed.
Print Assumptions C36_stop_partial.

(** The time from the first to the last station splits into the stopping times of the stations
    and the running times between neighbouring stations. *)
Theorem C36_split_partial : forall td st t tt res u mid v,
  stations_apart st -> blocks_once st -> annotated st tt -> visits_once tt -> NoDup (map r_block tt) ->
  runs td t tt -> res <> 1%Z -> ~ passes tt "" ->
  tt = u ++ mid ++ v ->
  (forall r, In r u \/ In r v -> r_station r = None) ->
  (exists r w, mid = r :: w /\ r_station r <> None) -> (exists w r, mid = w ++ [r] /\ r_station r <> None) ->
  exists stops passes,
    mapM (fun s => stop_time t s td st true res) (train_important_stations tt) = Ok stops /\
    mapM (fun p => minimal_passing_time tt (fst p) (snd p) res)
      (combine (train_important_stations tt) (tl (train_important_stations tt))) = Ok passes /\
    running mid == qsum (map fst stops) + qsum passes.
Proof.
  intros td st t tt res u mid v SA BO AN V ND R RN NE E OUT (r0 & w0 & M0 & S0) ML.
  assert (STN : train_important_stations tt = train_important_stations mid).
  { rewrite E, !stations_app.
    rewrite (proj2 (stations_nil u)) by (intros; apply OUT; auto).
    rewrite (proj2 (stations_nil v)) by (intros; apply OUT; auto). rewrite app_nil_r. reflexivity. }
  rewrite STN.
  (* going through the rows from the first station on *)
  assert (G : forall n w pre r, List.length w = n -> tt = pre ++ (r :: w) ++ v -> r_station r <> None ->
    (exists f x, r :: w = f ++ [x] /\ r_station x <> None) ->
    exists stops passes,
      mapM (fun s => stop_time t s td st true res) (train_important_stations (r :: w)) = Ok stops /\
      mapM (fun p => minimal_passing_time tt (fst p) (snd p) res)
        (combine (train_important_stations (r :: w)) (tl (train_important_stations (r :: w)))) = Ok passes /\
      running (r :: w) == qsum (map fst stops) + qsum passes).
  { induction n as [n IH] using lt_wf_ind. intros w pre r LN EQ SR LAST.
    destruct (r_station r) as [s|] eqn:Er; [|congruence].
    assert (HR : In r tt) by (rewrite EQ; apply in_app_iff; right; left; reflexivity).
    destruct (C36_stop_partial td st t tt r s true res SA BO AN V ND R HR Er) as (q & prep & EQ1 & [Q1 _] & _).
    specialize (Q1 RN). cbv iota in Q1.
    change (r :: w) with ([r] ++ w). rewrite stations_app. simpl train_important_stations at 1 3 5. rewrite Er. simpl app.
    destruct (train_important_stations w) as [|s2 rest] eqn:W.
    - (* the last station *)
      assert (w = []).
      { destruct LAST as (f & x & EL & SX). destruct w as [|y w] using rev_ind; auto. exfalso.
        change (r :: w ++ [y]) with ((r :: w) ++ [y]) in EL. apply app_inj_tail in EL as [_ <-].
        apply SX. apply (proj1 (stations_nil (w ++ [y])) W). apply in_app_iff. right. left. reflexivity. }
      subst w. exists [(q, prep)], []. cbn [mapM combine tl map fst]. rewrite EQ1. cbn [bind].
      split; [reflexivity|]. split; [reflexivity|]. simpl. lra.
    - pose proof W as W'. apply (stations_split w [] s2 rest) in W' as (leg & r2 & w2 & -> & Er2 & LEG & REST).
      assert (LEG' := proj1 (stations_nil leg) LEG).
      destruct (IH (List.length w2)) with (w := w2) (pre := pre ++ r :: leg) (r := r2) as (stops & passes & E1 & E2 & E3).
      + rewrite <- LN, app_length. simpl. lia.
      + reflexivity.
      + rewrite EQ. simpl. rewrite <- !app_assoc. simpl. reflexivity.
      + rewrite Er2. discriminate.
      + destruct LAST as (f & x & EL & SX). destruct w2 as [|y w2] using rev_ind; [exists [], r2; split; auto; congruence|].
        exists (r2 :: w2), y. split; auto.
        assert (X : (r :: leg ++ r2 :: w2) ++ [y] = f ++ [x]) by (rewrite <- EL; simpl; rewrite <- app_assoc; reflexivity).
        apply app_inj_tail in X as [_ <-]. exact SX.
      + assert (GO : goes tt s s2 leg).
        { exists pre, r, r2, (w2 ++ v). split; [|auto]. rewrite EQ. simpl. rewrite <- !app_assoc. reflexivity. }
        assert (SN : s <> "") by (intros ->; apply NE; exists r; auto).
        destruct (C36_pass_partial tt s s2 leg res ND V SN GO) as (p & EP & [P1 _]). specialize (P1 RN).
        change (r2 :: w2) with ([r2] ++ w2) in E1, E2. rewrite stations_app in E1, E2. simpl train_important_stations in E1, E2.
        rewrite Er2 in E1, E2. simpl app in E1, E2. rewrite REST in E1, E2.
        exists ((q, prep) :: stops), (p :: passes).
        split; [|split].
        * rewrite mapM_cons, EQ1. cbn [bind]. rewrite E1. reflexivity.
        * change (combine (s :: s2 :: rest) (tl (s :: s2 :: rest))) with ((s, s2) :: combine (s2 :: rest) rest).
          rewrite mapM_cons. cbn [fst snd]. rewrite EP. cbn [bind]. cbn [tl] in E2. rewrite E2. reflexivity.
        * cbn [map fst]. change (qsum (q :: map fst stops)) with (q + qsum (map fst stops)).
          change (qsum (p :: passes)) with (p + qsum passes).
          change (running (r :: leg ++ r2 :: w2)) with (time_of r + running (leg ++ r2 :: w2)).
          rewrite running_app, E3, Q1, P1. lra. }
  rewrite M0 in *. apply (G (List.length w0) w0 u r0); auto.
Qed.
Print Assumptions C36_split_partial.

Lemma directly_leaves tt s s2 mid : directly tt s s2 mid -> leaves tt s s2 (map r_block mid).
Proof.
  intros [(pre & r1 & r2 & post & E & E1 & E2) N]. exists pre, r1, mid, r2, post. auto.
Qed.

Lemma leaves_directly tt s s2 line : leaves tt s s2 line -> exists mid, directly tt s s2 mid /\ line = map r_block mid.
Proof.
  intros (pre & r1 & mid & r2 & post & E & E1 & E2 & N & L). exists mid. split; auto. split; auto.
  exists pre, r1, r2, post. auto.
Qed.

Lemma goes_passes tt s s2 mid : goes tt s s2 mid -> passes tt s /\ passes tt s2.
Proof.
  intros (pre & r1 & r2 & post & -> & E1 & E2). split; [exists r1|exists r2]; split; auto;
    rewrite ?in_app_iff; simpl; rewrite ?in_app_iff; simpl; auto.
Qed.

(** The entries of one train *)
Definition pass_entries (tt : table) (t r : Z) (s : string) : res (list (string * Q)) :=
  do s2 <- next_station tt s;
  match s2 with
  | None => Ok []
  | Some s2 => do q <- minimal_passing_time tt s s2 r; Ok [(key3 t s s2, q)]
  end.

Theorem C36_table_partial : forall td trains r,
  all_visit_once td -> all_blocks_once td -> named_well td ->
  (forall t, wanted td trains t -> In t (dkeys td)) ->
  exists d, get_taus_pass td trains r = Ok d /\
    (forall k q, dget k d = Some q ->
       exists t tt s s2 mid, wanted td trains t /\ runs td t tt /\ directly tt s s2 mid /\
         k = (str_of_Z t ++ "_" ++ s ++ "_" ++ s2)%string) /\
    (forall t tt s s2 mid, wanted td trains t -> runs td t tt -> directly tt s s2 mid ->
       exists q, dget (str_of_Z t ++ "_" ++ s ++ "_" ++ s2)%string d = Some q /\ in_resolution r (running mid) q).
Proof.
  intros td trains r VO BO NW WK. unfold get_taus_pass.
  set (l := match trains with Some l => l | None => dkeys (get_Paths td) end).
  assert (WL : forall t, In t l <-> wanted td trains t).
  { intros t. unfold l, wanted. destruct trains; [tauto|].
    assert (K : dkeys (get_Paths td) = dkeys td) by (unfold get_Paths, dkeys; rewrite map_map; reflexivity).
    rewrite K. tauto. }
  set (F := fun t => do tt <- train_time_table td t; do path <- dlookup t (get_Paths td);
                     do ess <- mapM (pass_entries tt t r) path; Ok (List.concat ess)).
  rewrite (fold_entries _ F l).
  2: { intros d t _. unfold F. destruct (train_time_table td t) as [tt|]; [|reflexivity]. cbn [bind].
       destruct (dlookup t (get_Paths td)) as [path|]; [|reflexivity]. cbn [bind].
       rewrite (fold_entries _ (pass_entries tt t r)).
       - destruct (mapM (pass_entries tt t r) path); reflexivity.
       - intros d' s _. unfold pass_entries. destruct (next_station tt s) as [[s2|]|]; [|reflexivity|reflexivity]. cbn [bind].
         destruct (minimal_passing_time tt s s2 r); reflexivity. }
  assert (PE : forall t tt, runs td t tt -> forall s, passes tt s -> exists es, pass_entries tt t r s = Ok es /\
     forall e, In e es <-> exists s2 mid q, directly tt s s2 mid /\ e = (key3 t s s2, q) /\ minimal_passing_time tt s s2 r = Ok q).
  { intros t tt R s P. unfold pass_entries. destruct (next_total tt s) as (o & EO). rewrite EO. cbn [bind].
    assert (V := VO t tt R). destruct o as [s2|].
    - pose proof EO as L. apply next_leaves in L as (line & L); auto. apply leaves_directly in L as (mid & D & _).
      destruct (C36_pass_partial tt s s2 mid r (BO t tt R) V (proj1 (NW t tt s R P)) (proj1 D)) as (q & E & _).
      rewrite E. cbn [bind]. eexists. split; [reflexivity|]. intros e. split.
      + intros [<-|[]]. exists s2, mid, q. auto.
      + intros (s3 & mid' & q' & D' & -> & E'). apply directly_leaves in D'.
        assert (N' : next_station tt s = Ok (Some s3)) by (apply next_leaves; eauto). rewrite EO in N'. inversion N'; subst.
        left. congruence.
    - eexists. split; [reflexivity|]. intros e. split; [intros []|]. intros (s3 & mid' & q' & D' & _).
      apply directly_leaves in D'.
      assert (N' : next_station tt s = Ok (Some s3)) by (apply next_leaves; eauto). rewrite EO in N'. discriminate. }
  assert (FT : forall t, In t l -> exists tt es, runs td t tt /\ F t = Ok es /\
     forall e, In e es <-> exists s s2 mid q, directly tt s s2 mid /\ e = (key3 t s s2, q) /\ minimal_passing_time tt s s2 r = Ok q).
  { intros t Ht. apply WL, WK, in_keys_runs in Ht as (tt & R). exists tt. unfold F.
    pose proof R as T. apply time_table_ok in T. rewrite T. cbn [bind].
    assert (P : dlookup t (get_Paths td) = Ok (train_important_stations tt)).
    { apply dlookup_ok. rewrite paths_get. destruct R as (i & ->). reflexivity. }
    rewrite P. cbn [bind].
    destruct (mapM_total (pass_entries tt t r) (train_important_stations tt)) as (ess & M).
    { intros s Hs. apply stations_in in Hs. destruct (PE t tt R s Hs) as (es & E & _). eauto. }
    rewrite M. cbn [bind]. eexists. split; auto. split; [reflexivity|]. intros e.
    rewrite (mapM_concat_in _ _ _ e M). split.
    - intros (s & es & Hs & E & I). apply stations_in in Hs. destruct (PE t tt R s Hs) as (es' & E' & IE).
      rewrite E in E'. inversion E'; subst es'. destruct (proj1 (IE _) I) as (s2 & mid & q & A). exists s, s2, mid, q. exact A.
    - intros (s & s2 & mid & q & D & A). assert (P' := proj1 (goes_passes _ _ _ _ (proj1 D))).
      destruct (PE t tt R s P') as (es & E & IE). exists s, es. split; [apply stations_in; exact P'|]. split; auto.
      apply IE. exists s2, mid, q. auto. }
  destruct (mapM_total F l) as (ess & M).
  { intros t Ht. destruct (FT t Ht) as (tt & es & _ & E & _). eauto. }
  rewrite M. cbn [bind]. eexists. split; [reflexivity|].
  assert (IN : forall k q, In (k, q) (List.concat ess) <-> exists t tt s s2 mid, wanted td trains t /\ runs td t tt /\
     directly tt s s2 mid /\ k = key3 t s s2 /\ minimal_passing_time tt s s2 r = Ok q).
  { intros k q. rewrite (mapM_concat_in _ _ _ (k, q) M). split.
    - intros (t & es & Ht & E & I). destruct (FT t Ht) as (tt & es' & R & E' & IE). rewrite E in E'. inversion E'; subst es'.
      destruct (proj1 (IE _) I) as (s & s2 & mid & q' & D & EQ & E2). inversion EQ; subst k q'. exists t, tt, s, s2, mid.
      split; [apply WL; exact Ht|]. auto.
    - intros (t & tt & s & s2 & mid & W & R & D & -> & E). apply WL in W. destruct (FT t W) as (tt' & es' & R' & E' & IE).
      rewrite (runs_fun _ _ _ _ R' R) in IE. exists t, es'. split; auto. split; auto. apply IE. exists s, s2, mid, q. auto. }
  split.
  - intros k q H. apply dupdate_get in H as [H|H]; [discriminate|].
    apply IN in H as (t & tt & s & s2 & mid & A & B & C & D & _). exists t, tt, s, s2, mid. auto.
  - intros t tt s s2 mid W R D. assert (P := proj1 (goes_passes _ _ _ _ (proj1 D))).
    destruct (C36_pass_partial tt s s2 mid r (BO t tt R) (VO t tt R) (proj1 (NW t tt s R P)) (proj1 D)) as (q & E & RES).
    exists q. split; auto. apply entries_get; [|apply IN; exists t, tt, s, s2, mid; auto].
    intros v v' I I'. apply IN in I as (t1 & tt1 & a1 & b1 & m1 & W1 & R1 & D1 & K1 & E1).
    apply IN in I' as (t2 & tt2 & a2 & b2 & m2 & W2 & R2 & D2 & K2 & E2). rewrite K1 in K2.
    apply key3_inj in K2 as (-> & -> & ->).
    + rewrite (runs_fun _ _ _ _ R1 R2) in E1. congruence.
    + apply (NW t1 tt1 a1 R1). apply (goes_passes _ _ _ _ (proj1 D1)).
    + apply (NW t2 tt2 a2 R2). apply (goes_passes _ _ _ _ (proj1 D2)).
Qed.
Print Assumptions C36_table_partial.

(** A station with two blocks in a row: a1, a2 belong to A.  The time of a2 is counted in the
    run from A to B (3 + 2) and again in the stop at A (1 + 3). *)
Definition timed (b : string) (s : option string) (q : Q) (turn : option Q) : row :=
  MkRow b None None None None None None turn (Some q) s.

Definition long_tt : table :=
  [timed "a1" (Some "A") 1 None; timed "a2" (Some "A") 3 None; timed "x" None 2 None; timed "b1" (Some "B") 1 None].

Theorem C36_double_refuted : exists tt st td t,
  NoDup (map r_block tt) /\ annotated st tt /\ stations_apart st /\ runs td t tt /\
  exists pre r1 mid r2 post, tt = pre ++ r1 :: mid ++ r2 :: post /\
    r_station r1 = Some "A" /\ r_station r2 = Some "B" /\ (forall r, In r mid -> r_station r = None) /\
    (forall q, minimal_passing_time tt "A" "B" 0 = Ok q -> ~ q == running mid) /\
    exists p stops, minimal_passing_time tt "A" "B" 0 = Ok p /\
      mapM (fun s => stop_time t s td st true 0) ["A"; "B"] = Ok stops /\
      ~ qsum (map fst stops) + p == running tt.
Proof.
  exists long_tt, abc_st, [(11%Z, ([], long_tt))], 11%Z.
  split; [repeat constructor; simpl; intuition discriminate|]. split.
  { intros r s Hr. rewrite abc_station. simpl in Hr.
    repeat (destruct Hr as [Hr|Hr]; [subst r; cbn; intuition (try congruence)|]); try tauto. }
  split; [apply abc_apart|]. split; [eexists; reflexivity|].
  exists [timed "a1" (Some "A") 1 None], (timed "a2" (Some "A") 3 None), [timed "x" None 2 None], (timed "b1" (Some "B") 1 None), [].
  split; [reflexivity|]. split; [reflexivity|]. split; [reflexivity|]. split; [intros r [<-|[]]; reflexivity|]. split.
  - intros q E X. vm_compute in E. inversion E; subst. vm_compute in X. discriminate.
  - do 2 eexists. split; [vm_compute; reflexivity|]. split; [vm_compute; reflexivity|]. vm_compute. discriminate.
Qed.
Print Assumptions C36_double_refuted.

Definition run_tt : table :=
  [timed "w" None 5 None; timed "a1" (Some "A") 1 (Some 4); timed "x" None (3 # 2) None; timed "y" None 2 None;
   timed "b1" (Some "B") (1 # 2) (Some 6); timed "z" None (5 # 2) None; timed "c1" (Some "C") 1 None].
Definition run_td : train_dict := [(11%Z, (["KS - Os"], run_tt))].

Lemma run_ok : NoDup (map r_block run_tt) /\ visits_once run_tt /\ annotated abc_st run_tt /\ all_visit_once run_td /\
  all_blocks_once run_td /\ named_well run_td /\ all_annotated abc_st run_td.
Proof.
  assert (R : forall t tt, runs run_td t tt -> tt = run_tt).
  { intros t tt (i & H). unfold run_td in H. simpl in H. destruct (eq_dec t 11%Z); inversion H; auto. }
  assert (B : NoDup (map r_block run_tt)) by (repeat constructor; simpl; intuition discriminate).
  assert (V : visits_once run_tt) by (apply visits_once_nodup; repeat constructor; simpl; intuition discriminate).
  assert (A : annotated abc_st run_tt).
  { intros r s Hr. rewrite abc_station. simpl in Hr.
    repeat (destruct Hr as [Hr|Hr]; [subst r; cbn; intuition (try congruence)|]); try tauto. }
  split; auto. split; auto. split; auto. split; [intros t tt H; rewrite (R t tt H); exact V|].
  split; [intros t tt H; rewrite (R t tt H); exact B|]. split.
  - intros t tt s H P. rewrite (R t tt H) in P. destruct P as (r & Hr & Er). simpl in Hr.
    repeat (destruct Hr as [<-|Hr]; [cbn in Er; first [discriminate Er|inversion Er; subst; split;
      [discriminate|apply no_us_allc; reflexivity]]|]); destruct Hr.
  - intros t i tt [H|[]]. inversion H; subst. exact A.
Qed.

Example C36_case :
  directly run_tt "A" "B" [timed "x" None (3 # 2) None; timed "y" None 2 None] /\
  get_taus_pass run_td None 1 = Ok [("11_A_B", 4); ("11_B_C", 2)]%Q /\
  get_taus_pass run_td None 0 = Ok [("11_A_B", 7 # 2); ("11_B_C", 5 # 2)]%Q /\
  stop_time 11 "B" run_td abc_st false 0 = Ok (13 # 2, []).
Proof.
  split; [split|].
  - exists [timed "w" None 5 None], (timed "a1" (Some "A") 1 (Some 4)), (timed "b1" (Some "B") (1 # 2) (Some 6)),
      [timed "z" None (5 # 2) None; timed "c1" (Some "C") 1 None]. repeat split.
  - intros r [<-|[<-|[]]]; reflexivity.
  - split; [|split]; vm_compute; reflexivity.
Qed.
