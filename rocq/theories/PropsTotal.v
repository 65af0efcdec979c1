(** * PropsTotal: complete tables give a problem (C56) *)

From Coq Require Import List String Ascii ZArith QArith Bool Lia Lqa.
From Verif Require Import Base BaseFacts Pulp Helpers LinearSolver Spec SpecNames SpecTimes SpecBuild DataTables DataSets DataTimes Pipeline
  SpecDurations SpecEnd QuboFacts Names FileFacts TableFacts SetFacts TimeFacts
  PropsTables PropsSets PropsSwitch PropsTimes PropsHeadway PropsPrep PropsSchedule PropsBuild EndFacts PropsEnd.
From Verif Require Import SpecTables SpecSets.
Import ListNotations.
Open Scope string_scope.
Open Scope list_scope.

(** ** Lists *)

Lemma listed_filter {A} (keep : A -> bool) l a b : listed (filter keep l) a b -> listed l a b.
Proof.
  intros (u & v & w & E). revert u E. induction l as [|x l IH]; intros u E; cbn [filter] in E; [destruct u; discriminate|].
  assert (C : forall u, filter keep l = u ++ a :: v ++ b :: w -> listed (x :: l) a b).
  { intros u' E'. destruct (IH u' E') as (p & q & r & ->). exists (x :: p), q, r. reflexivity. }
  destruct (keep x); [|exact (C u E)]. destruct u as [|y u]; cbn in E; inversion E; subst; [|exact (C u H1)].
  assert (I : In b l).
  { assert (I : In b (filter keep l)) by (rewrite H1; apply in_or_app; right; left; reflexivity). apply filter_In in I. apply I. }
  apply in_split in I as (p & q & ->). exists [], p, q. reflexivity.
Qed.

Lemma pairs_in_in {A} (l : list A) a b : In (a, b) (pairs_in l) -> In a l /\ In b l.
Proof.
  induction l as [|x l IH]; cbn; [tauto|]. rewrite in_app_iff, in_map_iff. intros [(z & E & I)|I]; [inversion E; subst; auto|].
  destruct (IH I). auto.
Qed.

Lemma pairs_in_nodup {A} (l : list A) : NoDup l -> NoDup (pairs_in l).
Proof.
  induction l as [|x l IH]; intros N; [constructor|]. inversion N; subst. cbn. apply Builds.nodup_app.
  - apply FinFun.Injective_map_NoDup; [|assumption]. intros a b E. congruence.
  - auto.
  - intros [a b] I I'. apply in_map_iff in I as (z & E & _). inversion E; subst. apply pairs_in_in in I' as [I' _]. contradiction.
Qed.

Lemma pairs_of_groups {A} (gs : list (list A)) : NoDup (List.concat gs) -> NoDup (flat_map pairs_in gs).
Proof.
  induction gs as [|g gs IH]; intros N; [constructor|]. cbn in *. apply Builds.nodup_app.
  - apply pairs_in_nodup. apply nodup_parts in N. apply N.
  - apply IH. apply nodup_parts in N. apply N.
  - intros [a b] I I'. apply in_flat_map in I' as (g' & Ig & I'). apply pairs_in_in in I, I'.
    revert N. clear - I I' Ig. intros N. assert (X : In a (List.concat gs)) by (apply in_concat; exists g'; tauto).
    destruct I as [I _]. apply in_split in I as (u & v & ->). rewrite <- app_assoc in N. cbn in N. apply NoDup_remove_2 in N.
    apply N. rewrite !in_app_iff. auto.
Qed.

Lemma concat_map {A B} (f : A -> B) ll : List.concat (map (map f) ll) = map f (List.concat ll).
Proof. induction ll as [|l ll IH]; [reflexivity|]. cbn. rewrite IH, map_app. reflexivity. Qed.

Lemma nodup_map {A B} (f : A -> B) l : (forall a b, f a = f b -> a = b) -> NoDup l -> NoDup (map f l).
Proof. intros I. apply FinFun.Injective_map_NoDup. exact I. Qed.

(** ** Names *)

Lemma number_plain z : (0 <= z)%Z -> all_chars plain_char (str_of_Z z) = true.
Proof.
  intros P. unfold str_of_Z, DecimalString.NilZero.string_of_int.
  assert (H : forall u, all_chars plain_char (DecimalString.NilEmpty.string_of_uint u) = true).
  { induction u as [|u IH|u IH|u IH|u IH|u IH|u IH|u IH|u IH|u IH|u IH]; [reflexivity|..]; exact IH. }
  assert (H' : forall u, all_chars plain_char (DecimalString.NilZero.string_of_uint u) = true) by (intros []; [reflexivity|..]; apply H).
  destruct z; [reflexivity|apply H'|lia].
Qed.

Lemma name_plain s : no_underscore s -> (forall n, In n lp_var_chars -> ~ has_char n s) -> all_chars plain_char s = true.
Proof.
  intros U N. assert (N' : forall n, In n (95 :: lp_var_chars)%nat -> ~ has_char n s).
  { intros n [<-|I]; [|auto]. intros (u & c & v & E & Ec). apply (U u v). rewrite E.
    assert (c = "_"%char); [|subst; reflexivity]. rewrite <- (ascii_nat_embedding c), Ec. reflexivity. }
  clear U N. induction s as [|c s IH]; [reflexivity|]. cbn [all_chars]. apply andb_true_iff. split.
  - unfold plain_char. destruct (lmem _ _) eqn:M; [|reflexivity]. exfalso. apply lmem_true in M.
    apply (N' (nat_of_ascii c)).
    + cbn in *. tauto.
    + exists "", c, s. auto.
  - apply IH. intros n I (u & c' & v & E & Ec). apply (N' n I). exists (String c u), c', v. rewrite E. auto.
Qed.

(** ** Weights *)

Lemma weights_total td sk w :
  NoDup (dkeys td) ->
  (forall t info tt, dget t td = Some (info, tt) -> exists kind rest q, info = kind :: rest /\
     kind_weight (w_stopping w) (w_fast w) (w_express w) kind q) ->
  (forall t tt, runs td t tt -> exists s, last_decided (dget t sk) tt s) ->
  exists d, make_weights td sk w = Ok d /\
    forall k q, dget k d = Some q -> exists t tt s, runs td t tt /\ last_decided (dget t sk) tt s /\ k = key2 t s.
Proof.
  intros ND KW LD. unfold make_weights.
  match goal with |- exists d, foldM ?f td [] = Ok d /\ _ => destruct (foldM_total (fun d => forall k q, dget k d = Some q ->
    exists t tt s, runs td t tt /\ last_decided (dget t sk) tt s /\ k = key2 t s) f td []) as (d & E & I) end; [discriminate| |eauto].
  intros acc [t [i tt]] I IH. assert (D : dget t td = Some (i, tt)) by (apply in_dget; auto).
  destruct (KW t i tt D) as (kind & rest & q & -> & K). destruct (LD t tt (ex_intro _ _ D)) as (s & L).
  pose proof L as L'. apply decided_ok in L'. cbn [fst snd lnth nth_error bind].
  rewrite (proj2 (kind_ok w kind q) K). cbn [bind].
  destruct (last1 (train_important_stations tt)) as [st1|]; [|discriminate]. cbn [bind] in *. rewrite L'. cbn [bind].
  eexists. split; [reflexivity|]. intros k q' G. rewrite dget_dset in G. destruct (eq_dec k (key2 t s)) as [->|]; [|eauto].
  exists t, tt, s. split; [exists (kind :: rest); exact D|auto].
Qed.

(** ** Timetables *)

Lemma not_end_before tt pre r r2 post s : visits_once tt -> tt = pre ++ r :: r2 :: post -> r_station r = Some s -> ~ ends_at tt s.
Proof.
  intros V E R (f & z & E' & Z). destruct (@exists_last _ (r2 :: post)) as (m & y & Em); [discriminate|].
  rewrite Em in E. pose proof E as E2. rewrite E' in E2. replace (pre ++ r :: m ++ [y]) with ((pre ++ r :: m) ++ [y]) in E2 by (rewrite <- app_assoc; reflexivity).
  apply app_inj_tail in E2 as [_ ->]. apply (V pre r m y [] s E R Z).
Qed.

Lemma leaves_not_end tt s s2 line : visits_once tt -> leaves tt s s2 line -> ~ ends_at tt s.
Proof.
  intros V (pre & r1 & mid & r2 & post & E & E1 & _). destruct mid as [|m mid]; cbn in E; eapply not_end_before; eauto.
Qed.

Lemma leaves_passes tt s s2 line : leaves tt s s2 line -> passes tt s /\ passes tt s2.
Proof. intros L. apply leaves_goes in L as (mid & G & _). apply (goes_passes _ _ _ _ G). Qed.

Lemma leaves_directly tt s s2 line : leaves tt s s2 line -> exists mid, directly tt s s2 mid /\ line = map r_block mid.
Proof.
  intros (pre & r1 & mid & r2 & post & E & E1 & E2 & N & L). exists mid. split; [|exact L]. split; [|exact N]. exists pre, r1, r2, post. auto.
Qed.

(** A train with two stations has a last departure. *)
Lemma last_decided_ex td sk t tt : NoDup (dkeys td) -> visits_once tt -> runs td t tt -> get_skip_stations td = Ok sk ->
  (exists s s2 mid, directly tt s s2 mid) -> exists s, last_decided (dget t sk) tt s.
Proof.
  intros ND V R Ek (s & s2 & mid & D). apply directly_leaves, leaves_stations in D as (u & v & E).
  assert (S : exists a b w, train_important_stations tt = w ++ [a; b]).
  { destruct (@exists_last _ (s2 :: v)) as (m & y & Em); [discriminate|]. rewrite Em in E.
    destruct m as [|x m].
    - exists s, y, u. exact E.
    - destruct (@exists_last _ (x :: m)) as (m' & y' & Em'); [discriminate|]. rewrite Em' in E. exists y', y, (u ++ s :: m'). rewrite E.
      rewrite <- !app_assoc. reflexivity. }
  destruct S as (a & b & w & S).
  assert (L1 : last1 (train_important_stations tt) = Ok b).
  { apply PropsSchedule.last1_ok. exists (w ++ [a]). rewrite S, <- app_assoc. reflexivity. }
  assert (L2 : last2 (train_important_stations tt) = Ok a) by (apply PropsSchedule.last2_ok; eauto).
  destruct (dget t sk) as [e|] eqn:G.
  - destruct (eq_dec b e) as [->|N].
    + exists a. apply decided_ok. rewrite L1. cbn [bind]. rewrite eqb_refl. exact L2.
    + exists b. apply decided_ok. rewrite L1. cbn [bind]. rewrite (proj2 (eqb_false _ _) N). reflexivity.
  - exists b. apply decided_ok. rewrite L1. reflexivity.
Qed.

(** The station at which the weight is given is not left out. *)
Lemma last_decided_stays td sk t tt s : NoDup (dkeys td) -> visits_once tt -> runs td t tt -> get_skip_stations td = Ok sk ->
  last_decided (dget t sk) tt s -> passes tt s /\ ~ ends_at tt s.
Proof.
  intros ND V R Ek (pre & r & post & E & Er & C). split.
  { exists r. split; [rewrite E; apply in_or_app; right; left; reflexivity|exact Er]. }
  intros En. assert (G : dget t sk = Some s) by (apply (C47_skip td sk ND Ek); eauto).
  destruct C as [[_ N]|(mid & r2 & rest & s2 & -> & E2 & G2 & _)]; [congruence|].
  assert (s2 = s) by congruence. subst s2. exact (V pre r mid r2 rest s E Er E2).
Qed.

Section Total.
  Context td st net t1 delays ts tt (T : tidy td st) (C : complete td st net t1) (NP : no_part_lines td)
    (H : made td st net t1 delays ts tt).

  Let ND := tidy_trains _ _ T.
  Let SA := tidy_stations _ _ T.
  Let BO := tidy_blocks _ _ T.
  Let AN := tidy_marked _ _ T.
  Let AV := tidy_visits _ _ T.
  Let AB := tidy_path _ _ T.

  Lemma key_runs t : In t (dkeys td) -> exists tb, runs td t tb.
  Proof. intros I. apply key_get in I as ([info tb] & G). exists tb, info. exact G. Qed.

  Lemma path_of t tb : runs td t tb -> dget (train t) (ts_Paths ts) = Some (map station (train_important_stations tb)).
  Proof.
    intros (info & R). destruct H as (_ & P & _). rewrite P. unfold emb_paths. rewrite (dget_embed train (map station) (get_Paths td) t train_inj).
    unfold get_Paths. rewrite (dget_map (fun v => train_important_stations (snd v))), R. reflexivity.
  Qed.

  Lemma path_inv j path : dget j (ts_Paths ts) = Some path -> exists t tb, j = train t /\ runs td t tb /\ path = map station (train_important_stations tb).
  Proof.
    intros G. assert (X : exists t, j = train t /\ In t (dkeys td)).
    { destruct H as (_ & P & _). rewrite P in G. apply dget_in in G. unfold emb_paths in G. apply in_map_iff in G as ([t l] & E & I).
      inversion E; subst. exists t. split; [reflexivity|]. unfold get_Paths in I. apply in_map_iff in I as ([t' v] & E' & I).
      inversion E'; subst. apply (in_map fst) in I. exact I. }
    destruct X as (t & -> & I). apply key_runs in I as (tb & R). exists t, tb. split; [reflexivity|]. split; [exact R|].
    rewrite (path_of _ _ R) in G. congruence.
  Qed.

  Lemma before_made t tb s s2 line : runs td t tb -> leaves tb s s2 line -> comes_before ts (train t) (station s) (station s2).
  Proof.
    intros R L. apply leaves_stations in L as (u & v & E).
    exists (map station (u ++ s :: s2 :: v)), (map station u), (map station v). split; [rewrite <- E; apply path_of; exact R|].
    split; [rewrite map_app; reflexivity|]. pose proof (AV _ _ R) as V. apply visits_once_nodup in V. rewrite E in V.
    replace (u ++ s :: s2 :: v) with ((u ++ [s]) ++ s2 :: v) in V by (rewrite <- app_assoc; reflexivity). apply NoDup_remove_2 in V.
    intros I. apply V, in_or_app. left. change [station s] with (map station [s]) in I. rewrite <- map_app in I.
    apply in_map_iff in I as (z & E' & I). apply station_inj in E'. subst z. exact I.
  Qed.

  Lemma before_inv j sp s : comes_before ts j sp s -> exists t tb a b line, j = train t /\ sp = station a /\ s = station b /\
    runs td t tb /\ leaves tb a b line.
  Proof.
    intros (path & l1 & l2 & G & E & _). apply path_inv in G as (t & tb & -> & R & P). rewrite P in E.
    assert (X : exists u a b v, train_important_stations tb = u ++ a :: b :: v /\ sp = station a /\ s = station b).
    { clear - E. revert l1 E. induction (train_important_stations tb) as [|x l IH]; intros [|y l1] E; cbn in E; try discriminate.
      - destruct l as [|z l]; inversion E; subst. exists [], x, z, l. auto.
      - inversion E; subst. destruct (IH l1 H1) as (u & a & b & v & -> & A & B). exists (x :: u), a, b, v. auto. }
    destruct X as (u & a & b & v & X & -> & ->). apply stations_leaves in X as (line & L). exists t, tb, a, b, line. auto.
  Qed.

  Lemma on_path_inv j s : on_path ts j s -> exists t tb a, j = train t /\ s = station a /\ runs td t tb /\ passes tb a.
  Proof.
    intros (path & G & I). apply path_inv in G as (t & tb & -> & R & ->). apply in_map_iff in I as (a & <- & I). apply stations_in in I.
    exists t, tb, a. auto.
  Qed.

  Lemma on_path_made t tb s : runs td t tb -> passes tb s -> on_path ts (train t) (station s).
  Proof. intros R P. eexists. split; [apply path_of; exact R|]. apply in_map. apply stations_in. exact P. Qed.

  Lemma skipped_inv t tb s : runs td t tb -> skipped ts (train t) s -> exists a, s = station a /\ ends_at tb a.
  Proof.
    intros R (sk' & E & G). destruct H as ((sk & w & Ek & Es & _) & _). rewrite Es in E. inversion E; subst sk'.
    unfold emb_skip in G. rewrite (dget_embed train station sk t train_inj) in G. destruct (dget t sk) as [a|] eqn:Ga; [|discriminate].
    cbn in G. inversion G; subst. exists a. split; [reflexivity|]. apply (C47_skip td sk ND Ek) in Ga as (tb' & R' & En).
    rewrite (runs_fun _ _ _ _ R R'). exact En.
  Qed.

  Lemma round_inv s l j k : In (s, l) (ts_Jround ts) -> In (j, k) l -> exists a t u, s = station a /\ j = train t /\ k = train u /\
    turns td st a t u /\ exists x, same_stock x t u.
  Proof.
    destruct (cp_pairs _ _ _ _ C) as [M1 M2]. intros I I2. destruct H as (_ & _ & _ & _ & _ & (r & Er & Jr) & _). rewrite Jr in I.
    apply in_map_iff in I as ([a l0] & E & I). inversion E; subst. cbn [fst snd] in *. apply in_map_iff in I2 as ([t u] & E2 & I2).
    inversion E2; subst. exists a, t, u. do 3 (split; [reflexivity|]).
    destruct (C43_placed_partial td st ND SA M1 M2) as (r' & Er' & _ & PL & _). assert (r' = r) by congruence. subst r'.
    eapply PL; [|exact I2]. apply in_dget; [apply (get_jround_shape _ _ _ Er)|exact I].
  Qed.

  Lemma turns_rows s j k : turns td st s j k -> exists tj tk f r r' w, runs td j tj /\ runs td k tk /\ tj = f ++ [r] /\ tk = r' :: w /\
    r_block r = r_block r' /\ r_station r = Some s /\ r_station r' = Some s.
  Proof.
    intros (b & (tj & tk & Rj & Rk & (f & r & Ej & B1) & (r' & w & Ek & B2)) & IS).
    exists tj, tk, f, r, r', w. split; [exact Rj|]. split; [exact Rk|]. split; [exact Ej|]. split; [exact Ek|]. split; [congruence|].
    destruct Rj as (i1 & Rj), Rk as (i2 & Rk). apply dget_in in Rj, Rk. split.
    - apply (AN _ _ _ Rj r s); [rewrite Ej; apply in_or_app; right; left; reflexivity|rewrite B1; exact IS].
    - apply (AN _ _ _ Rk r' s); [rewrite Ek; left; reflexivity|rewrite B2; exact IS].
  Qed.

  Lemma continues_inv s j jn : continues_as ts s j jn -> exists a t u, s = station a /\ j = train t /\ jn = train u /\ turns td st a t u.
  Proof.
    intros (l1 & l2 & G & _). apply dget_in in G. destruct (round_inv _ _ j jn G) as (a & t & u & X & Y & Z & W & _).
    { apply in_or_app. right. left. reflexivity. }
    exists a, t, u. auto.
  Qed.

  Lemma decided_made t tb s : runs td t tb -> passes tb s -> ~ ends_at tb s -> decided ts (train t) (station s).
  Proof.
    intros R P N. split.
    { destruct H as (_ & _ & J & _). rewrite J. apply in_map. eapply runs_key; eauto. }
    split; [apply (on_path_made _ _ _ R P)|]. split.
    - intros S. apply (skipped_inv _ _ _ R) in S as (a & E & En). apply station_inj in E. subst a. contradiction.
    - intros (jn & Cn). apply continues_inv in Cn as (a & t' & u & E & E' & _ & TU). apply station_inj in E. apply train_inj in E'. subst a t'.
      apply turns_rows in TU as (tj & tk & f & r & r' & w & Rj & _ & Ej & _ & _ & S1 & _). apply N. rewrite (runs_fun _ _ _ _ R Rj). exists f, r. auto.
  Qed.

  Lemma leaves_decided t tb s s2 line : runs td t tb -> leaves tb s s2 line -> decided ts (train t) (station s).
  Proof.
    intros R L. eapply decided_made; [exact R|apply (leaves_passes _ _ _ _ L)|]. eapply leaves_not_end; [exact (AV _ _ R)|exact L].
  Qed.

  Lemma decided_inv t tb s : runs td t tb -> decided ts (train t) (station s) -> passes tb s /\ ~ ends_at tb s.
  Proof.
    intros R (_ & (path & G & I) & N & _). rewrite (path_of _ _ R) in G. inversion G; subst path.
    apply in_map_iff in I as (z & E & I). apply station_inj in E. subst z. apply stations_in in I. split; [exact I|].
    intros En. apply N. destruct H as ((sk & w & Ek & Es & _) & _). exists (emb_skip sk). split; [exact Es|].
    unfold emb_skip. rewrite (dget_embed train station sk t train_inj).
    rewrite (proj2 (C47_skip td sk ND Ek t s) (ex_intro _ tb (conj R En))). reflexivity.
  Qed.

  (** The first station: where the train starts. *)
  Lemma starts_inv j s : starts_at ts j s -> exists t tb a row, j = train t /\ s = station a /\ runs td t tb /\ first_stop tb a row.
  Proof.
    intros (l & G). apply path_inv in G as (t & tb & -> & R & P).
    destruct (train_important_stations tb) as [|a v] eqn:E; [discriminate|]. inversion P; subst.
    apply (stations_split tb [] a v) in E as (pre & r & post & E & E1 & Er & _). exists t, tb, a, r. split; [reflexivity|]. split; [reflexivity|].
    split; [exact R|]. exists pre, post. split; [exact E|]. split; [|exact Er]. apply stations_nil. exact E1.
  Qed.

  Lemma starts_made t tb a row : runs td t tb -> first_stop tb a row -> starts_at ts (train t) (station a).
  Proof.
    intros R (pre & post & E & N & Er). exists (map station (train_important_stations post)). rewrite (path_of _ _ R). f_equal.
    change (station a :: map station (train_important_stations post)) with (map station (a :: train_important_stations post)). f_equal.
    apply (proj2 (PropsSchedule.stations_split tb [] a (train_important_stations post))). exists pre, row, post. split; [exact E|]. split; [apply stations_nil; exact N|]. auto.
  Qed.

  Lemma first_fun tb a b r r' : first_stop tb a r -> first_stop tb b r' -> a = b /\ r = r'.
  Proof.
    intros (p & q & E & N & R) (p' & q' & E' & N' & R'). rewrite E in E'. clear E. revert p' E' N'.
    induction p as [|x p IH]; intros [|x' p'] E N'; cbn in E; inversion E; subst.
    - split; congruence.
    - rewrite (N' x' (or_introl eq_refl)) in R. discriminate.
    - rewrite (N r' (or_introl eq_refl)) in R'. discriminate.
    - apply (IH (fun y I => N y (or_intror I)) p' H2). intros y I. apply N'. right. exact I.
  Qed.

  Lemma first_passes tb a r : first_stop tb a r -> passes tb a.
  Proof. intros (pre & post & -> & _ & R). exists r. split; [apply in_or_app; right; left; reflexivity|exact R]. Qed.

  (** A train with another station does not end at its first one. *)
  Lemma first_not_end t tb a r : runs td t tb -> first_stop tb a r -> exists s2 line, leaves tb a s2 line.
  Proof.
    intros R (pre & post & E & N & Er). destruct (cp_two _ _ _ _ C t tb R) as (s & s2 & mid & D). apply directly_leaves in D as L.
    assert (P : train_important_stations tb = a :: train_important_stations post).
    { apply (proj2 (stations_split tb [] a (train_important_stations post))). exists pre, r, post. split; [exact E|]. split; [apply stations_nil; exact N|]. auto. }
    destruct (train_important_stations post) as [|b v] eqn:Eb.
    - apply leaves_stations in L as (u & v & L). rewrite P in L. destruct u as [|? [|? ?]]; discriminate.
    - apply (stations_leaves tb [] a b v) in P as (line & L'). eauto.
  Qed.

  Lemma last_not_first t tb f r s : runs td t tb -> tb = f ++ [r] -> r_station r = Some s -> exists sp line, leaves tb sp s line.
  Proof.
    intros R E Er. destruct (cp_two _ _ _ _ C t tb R) as (a & b & mid & D). apply directly_leaves in D as L.
    assert (P : train_important_stations tb = train_important_stations f ++ [s]).
    { apply stations_split. exists f, r, []. auto. }
    destruct (train_important_stations f) as [|x l] eqn:Ef.
    - apply leaves_stations in L as (u & v & L). rewrite P in L. destruct u as [|? [|? ?]]; discriminate.
    - destruct (@exists_last _ (x :: l)) as (m & y & Em); [discriminate|]. rewrite Em in P. rewrite <- app_assoc in P.
      apply stations_leaves in P as (line & L'). eauto.
  Qed.

  (** ** The entries of the sets *)

  Lemma jd_inv s inner sp groups : In (s, inner) (ts_Jd ts) -> In (sp, groups) inner ->
    exists a b gs, s = station a /\ sp = station b /\ groups = map trains gs /\
      (forall g, In g gs -> exists keep, g = filter keep (dkeys td)) /\ NoDup (List.concat gs) /\
      forall g t, In g gs -> In t g -> exists tb line, runs td t tb /\ leaves tb a b line.
  Proof.
    intros I1 I2. destruct H as (_ & _ & _ & (d & Ed & Jd) & _). rewrite Jd in I1. apply in_map_iff in I1 as ([a i0] & E & I1). inversion E; subst s inner.
    cbn [fst snd] in *. apply in_map_iff in I2 as ([b gs] & E2 & I2). inversion E2; subst sp groups. cbn [fst snd] in *.
    destruct (jd_keys _ _ _ _ Ed) as [[KN _] KI]. apply (in_dget _ _ _ (KI _ _ I1)) in I2. apply (in_dget _ _ _ KN) in I1.
    destruct (C41_groups_partial td st None ND SA AN AV (fun _ x => x)) as (d' & Ed' & _ & G). assert (d' = d) by congruence. subst d'. clear Ed'.
    destruct (G a i0 I1) as (_ & G1 & _). destruct (C41_order td st None d a i0 b gs ND SA AN AV (fun _ x => x) Ed I1 I2) as [O1 O2].
    assert (LV : forall g t, In g gs -> In t g -> exists tb line, runs td t tb /\ leaves tb a b line)
      by (intros g t Ig It; apply G1; exists gs, g; auto).
    exists a, b, gs. do 3 (split; [reflexivity|]). split; [exact O1|]. split; [|exact LV].
    apply O2. intros t t' tb tb' line line' R R' L L'. exact (NP t t' tb tb' a b line line' R R' L L').
  Qed.

  Lemma line_inv s sp l : In ((s, sp), l) (ts_Josingle ts) ->
    exists a b l0 d, s = station a /\ sp = station b /\ l = map two_trains l0 /\ NoDup l0 /\ ts_Josingle ts = emb_line d /\ dget (b, a) d = None /\
    forall t u, In (t, u) l0 -> exists tb ub line, runs td t tb /\ runs td u ub /\ leaves tb a b line /\ leaves ub b a (rev line).
  Proof.
    intros I. destruct H as (_ & _ & _ & _ & (o & Eo & Jo) & _). rewrite Jo in I. apply in_map_iff in I as ([[a b] l0] & E & I). inversion E; subst.
    cbn [fst snd]. destruct (josingle_keys _ _ _ _ Eo) as [KN _]. apply (in_dget _ _ _ KN) in I.
    destruct (C40_opposing_partial td st None ND SA AN AV (fun _ x => x)) as (o' & Eo' & O1 & O2 & _). assert (o' = o) by congruence. subst o'. clear Eo'.
    exists a, b, l0, o. do 3 (split; [reflexivity|]). split; [exact (C40_once td st None o ND SA AN Logic.I Eo _ _ I)|]. split; [exact Jo|].
    split; [exact (O2 a b l0 I)|]. intros t u It. destruct (O1 a b l0 t u I It) as (_ & _ & _ & tb & ub & R & R' & (line & _ & L & L')).
    exists tb, ub, line. auto.
  Qed.

  Lemma track_inv s groups : In (s, groups) (ts_Jtrack ts) ->
    exists a gs, s = station a /\ groups = map trains gs /\
      (forall g, In g gs -> exists keep, g = filter keep (dkeys td)) /\ NoDup (List.concat gs) /\
      (forall t, In t (List.concat gs) <-> exists tb, runs td t tb /\ passes tb a /\ ~ exists x, In x depot_tracks /\ only_track st a tb x) /\
      (forall g t t' tb tb', In g gs -> In t g -> In t' (List.concat gs) -> runs td t tb -> runs td t' tb' -> (In t' g <-> same_track st a tb tb')).
  Proof.
    intros I. destruct H as (_ & _ & _ & _ & _ & _ & (d & Ed & Jt) & _). rewrite Jt in I. apply in_map_iff in I as ([a gs] & E & I). inversion E; subst.
    cbn [fst snd]. apply (in_dget _ _ _ (proj1 (jtrack_keys _ _ _ _ Ed))) in I.
    destruct (C39_groups td st None d ND SA BO AN Ed a gs I) as (_ & _ & G1 & G2 & G3 & G4). exists a, gs. do 2 (split; [reflexivity|]).
    split; [intros g Ig; apply (G1 g Ig)|]. auto.
  Qed.

  Lemma switch_inv s l : In (s, l) (ts_Jswitch ts) ->
    exists a vec, s = station a /\ l = map movement vec /\ NoDup vec /\
    forall e, In e vec -> exists j k tj tk x y, before td j k /\ runs td j tj /\ runs td k tk /\ e = [(j, x); (k, y)] /\ switch_conflict net a tj x tk y.
  Proof.
    intros I. destruct H as (_ & _ & _ & _ & _ & _ & _ & (d & Ed & Jw) & _). rewrite Jw in I. apply in_map_iff in I as ([a vec] & E & I). inversion E; subst.
    cbn [fst snd]. apply (in_dget _ _ _ (proj1 (jswitch_keys _ _ _ _ _ Ed))) in I.
    destruct (C42_switches_partial td st net None d ND SA AN AV (cp_rows _ _ _ _ C) Ed) as [_ V]. destruct (V a vec I) as [V1 V2].
    exists a, vec. do 2 (split; [reflexivity|]). split; [exact V1|]. intros e Ie. apply V2. exact Ie.
  Qed.

  Lemma w_known j : In j (mentioned_trains ts) -> exists t, j = train t /\ In t (dkeys td).
  Proof.
    unfold mentioned_trains. rewrite !in_app_iff. intros [I|[I|[I|[I|[I|[I|I]]]]]].
    - destruct H as (_ & _ & J & _). rewrite J in I. apply in_map_iff in I as (t & <- & I). eauto.
    - apply key_get in I as (path & G). apply path_inv in G as (t & tb & -> & R & _). exists t. split; [reflexivity|eapply runs_key; eauto].
    - apply in_flat_map in I as ([[s sp] l] & Ie & I). cbn [fst snd] in I. apply in_flat_map in I as ([x y] & Ip & I).
      apply line_inv in Ie as (a & b & l0 & d & -> & -> & -> & _ & _ & _ & P). apply in_map_iff in Ip as ([t u] & E & Ip). inversion E; subst.
      destruct (P t u Ip) as (tb & ub & _ & R & R' & _). cbn in I. destruct I as [<-|[<-|[]]]; eexists; (split; [reflexivity|eapply runs_key; eauto]).
    - apply in_flat_map in I as ([s inner] & Ie & I). cbn [snd] in I. apply in_flat_map in I as ([sp gs] & Iq & I). cbn [snd] in I.
      destruct (jd_inv _ _ _ _ Ie Iq) as (a & b & gs0 & _ & _ & -> & _ & _ & P). apply in_concat in I as (g & Ig & I).
      apply in_map_iff in Ig as (g0 & <- & Ig). apply in_map_iff in I as (t & <- & I). destruct (P g0 t Ig I) as (tb & _ & R & _).
      eexists. split; [reflexivity|eapply runs_key; eauto].
    - apply in_flat_map in I as ([s l] & Ie & I). cbn [fst snd] in I. apply in_flat_map in I as ([x y] & Ip & I).
      destruct (round_inv _ _ _ _ Ie Ip) as (a & t & u & _ & -> & -> & TU & _). apply turns_rows in TU as (tj & tk & _ & _ & _ & _ & R & R' & _).
      cbn in I. destruct I as [<-|[<-|[]]]; eexists; (split; [reflexivity|eapply runs_key; eauto]).
    - apply in_flat_map in I as ([s gs] & Ie & I). cbn [snd] in I. apply track_inv in Ie as (a & gs0 & _ & -> & _ & _ & P & _).
      unfold trains in I. rewrite concat_map in I. apply in_map_iff in I as (t & <- & I). apply P in I as (tb & R & _).
      eexists. split; [reflexivity|eapply runs_key; eauto].
    - apply in_flat_map in I as ([s l] & Ie & I). cbn [snd] in I. apply in_flat_map in I as (e & Ip & I). apply switch_inv in Ie as (a & vec & _ & -> & _ & P).
      apply in_map_iff in Ip as (e0 & <- & Ip). destruct (P e0 Ip) as (t & u & tb & ub & x & y & _ & R & R' & -> & _).
      cbn in I. destruct I as [<-|[<-|[]]]; eexists; (split; [reflexivity|eapply runs_key; eauto]).
  Qed.

  Lemma w_station q : In q (mentioned_stations ts) -> exists s, q = station s /\ In s (dkeys st).
  Proof. exact (made_station _ _ _ _ _ _ _ T H q). Qed.

  Lemma w_plain : plain_names ts.
  Proof.
    split; [|split; [|split]].
    - intros j I. apply w_known in I as (t & -> & I). apply number_plain. exact (cp_numbers _ _ _ _ C t I).
    - intros q I. apply w_station in I as (s & -> & I). apply name_plain; [apply (tidy_names _ _ T s I)|apply (cp_names _ _ _ _ C s I)].
    - intros j k I I' E. apply w_known in I as (t & -> & _). apply w_known in I' as (u & -> & _). cbn in E. apply str_of_Z_inj in E. congruence.
    - assert (X : forall q, In q (mentioned_stations ts) -> str q <> "None" /\ str q = str q /\ exists s, q = PStr s).
      { intros q I. apply w_station in I as (s & -> & I). split; [apply (tidy_names _ _ T s I)|]. split; [reflexivity|exists s; reflexivity]. }
      intros a b [<-|Ia] [<-|Ib] E; [reflexivity| | |].
      + exfalso. destruct (X b Ib) as [N _]. apply N. symmetry. exact E.
      + exfalso. destruct (X a Ia) as [N _]. apply N. exact E.
      + destruct (X a Ia) as (_ & _ & s & ->), (X b Ib) as (_ & _ & s' & ->). cbn in E. congruence.
  Qed.

  (** ** The fields of [well_formed] *)

  Lemma groups_proper gs : (forall g, In g gs -> exists keep, g = filter keep (dkeys td)) -> NoDup (List.concat gs) -> proper_groups ts (map trains gs).
  Proof.
    intros F N. split.
    - intros js j k I L. apply in_map_iff in I as (g & <- & I). destruct (F g I) as (keep & ->). destruct H as (_ & _ & J & _). rewrite J.
      assert (X : exists t u, j = train t /\ k = train u /\ listed (filter keep (dkeys td)) t u).
      { destruct L as (u & v & w & E). unfold trains in E. apply map_eq_app in E as (u0 & r & E1 & _ & E2).
        apply map_eq_cons in E2 as (t & r' & -> & <- & E2). apply map_eq_app in E2 as (v0 & r2 & -> & _ & E2).
        apply map_eq_cons in E2 as (t' & w0 & -> & <- & _). exists t, t'. split; [reflexivity|]. split; [reflexivity|]. exists u0, v0, w0. exact E1. }
      destruct X as (t & u & -> & -> & L'). apply (listed_map train). eapply listed_filter. exact L'.
    - apply pairs_of_groups. unfold trains. rewrite concat_map. apply nodup_map; [apply train_inj|exact N].
  Qed.

  Lemma listed_trains g j k : listed (trains g) j k -> exists t u, j = train t /\ k = train u /\ In t g /\ In u g /\ (NoDup g -> t <> u).
  Proof.
    intros (u & v & w & E). unfold trains in E. apply map_eq_app in E as (u0 & r & E1 & _ & E2).
    apply map_eq_cons in E2 as (t & r' & -> & <- & E2). apply map_eq_app in E2 as (v0 & r2 & -> & _ & E2).
    apply map_eq_cons in E2 as (t' & w0 & -> & <- & _). exists t, t'. split; [reflexivity|]. split; [reflexivity|].
    assert (L : listed g t t') by (exists u0, v0, w0; exact E1). destruct (Builds.listed_in _ _ _ L). split; [assumption|]. split; [assumption|].
    intros N. eapply Builds.listed_neq; eauto.
  Qed.

  Lemma w_headway t u tb ub s s2 l l' : t <> u -> runs td t tb -> runs td u ub -> leaves tb s s2 l -> leaves ub s s2 l' ->
    exists h, Spec.headway tt (train t) (train u) (station s) (station s2) h.
  Proof.
    intros N R R' L L'. destruct H as (_ & _ & _ & _ & _ & _ & _ & _ & _ & _ & EH & _).
    destruct (C37_table td st 1 ND SA AN AV AB (named _ _ T)) as (d & Ed & K & _). assert (d = tt_headway tt) by congruence. subst d.
    unfold Spec.headway. rewrite joined4. apply key_get. apply K. apply leaves_directly in L as (m & D & _). apply leaves_directly in L' as (m' & D' & _).
    exists t, u, tb, ub, s, s2, m, m'. auto 8.
  Qed.

  Lemma w_Jd s inner sp groups : In (s, inner) (ts_Jd ts) -> In (sp, groups) inner ->
    proper_groups ts groups /\
    forall js j k, In js groups -> listed js j k ->
      decided ts j s /\ decided ts k s /\ (exists h, Spec.headway tt j k s sp h) /\ (exists h, Spec.headway tt k j s sp h).
  Proof.
    intros I1 I2. destruct (jd_inv _ _ _ _ I1 I2) as (a & b & gs & -> & -> & -> & F & N & P). split; [apply groups_proper; assumption|].
    intros js j k Ij L. apply in_map_iff in Ij as (g & <- & Ig). apply listed_trains in L as (t & u & -> & -> & It & Iu & NE).
    assert (Ng : NoDup g) by (destruct (F g Ig) as (keep & ->); apply NoDup_filter; exact ND). specialize (NE Ng).
    destruct (P g t Ig It) as (tb & l & R & L). destruct (P g u Ig Iu) as (ub & l' & R' & L').
    split; [eapply leaves_decided; eauto|]. split; [eapply leaves_decided; eauto|]. split; eapply w_headway; eauto.
  Qed.

  Lemma two_trains_inj a b : two_trains a = two_trains b -> a = b.
  Proof. destruct a, b. unfold two_trains. cbn. intros E. inversion E. reflexivity. Qed.

  Lemma w_line s sp l : In ((s, sp), l) (ts_Josingle ts) -> NoDup l /\
    forall j k, In (j, k) l -> comes_before ts j s sp /\ comes_before ts k sp s /\
      (forall l', In ((sp, s), l') (ts_Josingle ts) -> ~ In (k, j) l').
  Proof.
    intros I. destruct (line_inv _ _ _ I) as (a & b & l0 & d & -> & -> & -> & N & Jo & NB & P).
    split; [apply nodup_map; [apply two_trains_inj|exact N]|]. intros j k Ij. apply in_map_iff in Ij as ([t u] & E & Ij). inversion E; subst. cbn [fst snd].
    destruct (P t u Ij) as (tb & ub & line & R & R' & L & L'). split; [eapply before_made; eauto|]. split; [eapply before_made; eauto|].
    intros l' I' _. rewrite Jo in I'. apply in_map_iff in I' as ([[x y] l1] & E' & I'). unfold station2 in E'. cbn in E'.
    apply (in_map fst) in I'. cbn in I'. apply dget_none in NB. apply NB. inversion E'; subst. exact I'.
  Qed.

  Lemma w_prep x j k s tk row : same_stock x j k -> turns td st s j k -> runs td k tk -> first_stop tk s row -> ~ ends_at tk s ->
    exists q, preparation tt (train k) (station s) q.
  Proof.
    intros SS TU R FS NE. pose proof (cp_turn _ _ _ _ C x j k s tk row SS TU R FS) as TN.
    destruct H as (_ & _ & _ & _ & _ & _ & _ & _ & _ & _ & _ & (prep & extra & Ep & Es & Pr) & _).
    destruct (C38_tables_partial td st None 1 SA BO AN AV AB (fun _ x => x)) as (stop' & extra' & Es' & SP & _).
    rewrite Es in Es'. inversion Es'; subst stop' extra'.
    assert (Irow : In row tk /\ r_station row = Some s).
    { destruct FS as (pre & post & -> & _ & E). split; [apply in_or_app; right; left; reflexivity|exact E]. }
    destruct (SP k tk s row (runs_key _ _ _ R) R (proj1 Irow) (proj2 Irow) NE) as [_ G].
    unfold preparation. rewrite Pr, joined2. destruct (r_turn row) as [q|] eqn:E; [|congruence].
    apply dget_in in G. apply (in_map fst) in G. destruct (dupdate_has extra prep _ G) as (v & V & _). exists v. exact V.
  Qed.

  Lemma w_round s l : In (s, l) (ts_Jround ts) -> NoDup l /\
    forall j k, In (j, k) l ->
      ends_here ts j s /\ (exists sp, comes_before ts j sp s) /\ starts_at ts k s /\ decided ts k s /\ (exists q, preparation tt k s q).
  Proof.
    intros I. split.
    - destruct (cp_pairs _ _ _ _ C) as [M1 M2]. pose proof H as H'. destruct H' as (_ & _ & _ & _ & _ & (r & Er & Jr) & _). rewrite Jr in I.
      apply in_map_iff in I as ([a l0] & E & I). inversion E; subst. cbn [fst snd].
      destruct (C43_placed_partial td st ND SA M1 M2) as (r' & Er' & NN & _). assert (r' = r) by congruence. subst r'.
      apply nodup_map; [apply two_trains_inj|]. apply (NN a). apply in_dget; [apply (get_jround_shape _ _ _ Er)|exact I].
    - intros j k Ij. destruct (round_inv _ _ _ _ I Ij) as (a & t & u & -> & -> & -> & TU & x & SS).
      destruct (turns_rows _ _ _ TU) as (tj & tk & f & r & r' & w & Rj & Rk & Ej & Ek & _ & S1 & S2).
      assert (FS : first_stop tk a r') by (exists [], w; split; [exact Ek|]; split; [intros ? []|exact S2]).
      destruct (first_not_end _ _ _ _ Rk FS) as (s2 & line & L).
      destruct (last_not_first _ _ _ _ _ Rj Ej S1) as (sp & line' & L').
      split; [|split; [|split; [|split]]].
      + exists (map station (train_important_stations f)). rewrite (path_of _ _ Rj). f_equal.
        change [station a] with (map station [a]). rewrite <- map_app. f_equal. apply stations_split. exists f, r, []. auto.
      + exists (station sp). eapply before_made; eauto.
      + eapply starts_made; eauto.
      + eapply leaves_decided; eauto.
      + eapply w_prep; eauto. eapply leaves_not_end; [exact (AV _ _ Rk)|exact L].
  Qed.

  (** The only row of a train at a station *)
  Lemma one_row t tb r r' s : runs td t tb -> In r tb -> In r' tb -> r_station r = Some s -> r_station r' = Some s -> r_block r = r_block r'.
  Proof.
    intros R I I' S S'. destruct (in_split _ _ I) as (u & v & E). rewrite E in I'. apply in_app_iff in I' as [I'|[->|I']]; [| reflexivity|].
    - apply in_split in I' as (u1 & u2 & ->). rewrite <- app_assoc in E. cbn in E. destruct (AV _ _ R u1 r' u2 r v s E S' S).
    - apply in_split in I' as (v1 & v2 & ->). destruct (AV _ _ R u r v1 r' v2 s E S S').
  Qed.

  Lemma used_block t tb r s b : runs td t tb -> In r tb -> r_station r = Some s -> in_station st b s -> (uses tb b <-> b = r_block r).
  Proof.
    intros R I S IS. split.
    - intros (r' & I' & <-). pose proof R as (info & G). apply dget_in in G. apply (AN _ _ _ G r' s I') in IS. eapply one_row; eauto.
    - intros ->. exists r. auto.
  Qed.

  Lemma w_track s groups : In (s, groups) (ts_Jtrack ts) ->
    proper_groups ts groups /\
    (forall js j, In js groups -> In j js -> on_path ts j s) /\
    (forall js j jn, In js groups -> In j js -> continues_as ts s j jn -> In jn js).
  Proof.
    intros I. destruct (track_inv _ _ I) as (a & gs & -> & -> & F & N & M & SM). split; [apply groups_proper; assumption|]. split.
    - intros js j Ij J. apply in_map_iff in Ij as (g & <- & Ig). apply in_map_iff in J as (t & <- & It).
      assert (Ic : In t (List.concat gs)) by (apply in_concat; eauto). apply M in Ic as (tb & R & P & _). eapply on_path_made; eauto.
    - intros js j jn Ij J Cn. apply in_map_iff in Ij as (g & <- & Ig). apply in_map_iff in J as (t & <- & It).
      apply continues_inv in Cn as (a' & t' & u & E & E' & -> & TU). apply station_inj in E. apply train_inj in E'. subst a' t'.
      assert (Ic : In t (List.concat gs)) by (apply in_concat; eauto). apply M in Ic as (tb & R & P & ND').
      destruct (turns_rows _ _ _ TU) as (tj & tk & f & r & r' & w & Rj & Rk & Ej & Ek & B & S1 & S2).
      assert (TJ : tj = tb) by (eapply runs_fun; eauto). rewrite TJ in *. clear TJ Rj.
      assert (ST : same_track st a tb tk).
      { intros b Ib. rewrite (used_block t tb r a b R), (used_block u tk r' a b Rk); try assumption.
        - rewrite B. reflexivity.
        - rewrite Ek. left. reflexivity.
        - rewrite Ej. apply in_or_app. right. left. reflexivity. }
      apply in_map. apply (SM g t u tb tk Ig It); try assumption. apply M. exists tk. split; [exact Rk|]. split.
      + exists r'. split; [rewrite Ek; left; reflexivity|exact S2].
      + intros (x & Ix & O1 & O2). apply ND'. exists x. split; [exact Ix|]. split; [exact O1|]. intros b Ib. rewrite (ST b Ib). auto.
  Qed.

  Lemma movement_inj a b : movement a = movement b -> a = b.
  Proof.
    revert b. induction a as [|[t x] a IH]; intros [|[u y] b] E; try reflexivity; try discriminate. cbn in E. inversion E; subst. f_equal. apply IH. assumption.
  Qed.

  Lemma w_place t tb a x z : runs td t tb -> goes_over net tb a x z -> proper_place ts (station a) (train t) (PStr x).
  Proof.
    intros R [[-> (pre & r1 & r & post & n & E & Er & (r0 & I0 & E0) & _)]|[-> (pre & r & r2 & post & n & E & Er & _)]].
    - right. split; [reflexivity|]. replace (pre ++ r1 :: r :: post) with ((pre ++ [r1]) ++ r :: post) in E by (rewrite <- app_assoc; reflexivity).
      assert (P : train_important_stations tb = train_important_stations (pre ++ [r1]) ++ a :: train_important_stations post) by (apply stations_split; exists (pre ++ [r1]), r, post; auto).
      destruct (r_station r0) as [s0|] eqn:E0'; [|congruence].
      assert (I : In s0 (train_important_stations (pre ++ [r1]))) by (apply stations_in; exists r0; auto).
      destruct (train_important_stations (pre ++ [r1])) as [|y l] eqn:Ey; [destruct I|].
      destruct (@exists_last _ (y :: l)) as (m & y' & Em); [discriminate|]. rewrite Em, <- app_assoc in P. cbn in P.
      apply stations_leaves in P as (line & L). exists (station y'). eapply before_made; eauto.
    - left. split; [reflexivity|]. eapply decided_made; [exact R| |].
      + exists r. split; [rewrite E; apply in_or_app; right; left; reflexivity|exact Er].
      + eapply not_end_before; [exact (AV _ _ R)|exact E|exact Er].
  Qed.

  Lemma w_switch s l : In (s, l) (ts_Jswitch ts) -> NoDup l /\
    forall pair, In pair l -> exists j a k b, pair = [(j, a); (k, b)] /\ listed (ts_J ts) j k /\
      proper_place ts s j a /\ proper_place ts s k b /\
      (a = PStr "in" -> b = PStr "in" -> forall sp, comes_before ts j sp s -> comes_before ts k sp s ->
         ts_Jd ts = [] \/
         exists inner groups, dget sp (ts_Jd ts) = Some inner /\ dget s inner = Some groups).
  Proof.
    intros I. destruct (switch_inv _ _ I) as (a & vec & -> & -> & N & P). split; [apply nodup_map; [apply movement_inj|exact N]|].
    intros pair Ip. apply in_map_iff in Ip as (e & <- & Ie). destruct (P e Ie) as (j & k & tj & tk & x & y & B & Rj & Rk & -> & (_ & _ & z & Z1 & Z2)).
    exists (train j), (PStr x), (train k), (PStr y). split; [reflexivity|]. split.
    { pose proof H as H'. destruct H' as (_ & _ & J & _). rewrite J. apply (listed_map train). exact B. }
    split; [eapply w_place; eauto|]. split; [eapply w_place; eauto|]. intros _ _ sp CB _. right.
    apply before_inv in CB as (t & tb & a0 & b0 & line & E & -> & E' & R & L). apply station_inj in E'. subst b0.
    pose proof H as H'. destruct H' as (_ & _ & _ & (d & Ed & Jd) & _).
    destruct (C41_groups_partial td st None ND SA AN AV (fun _ x => x)) as (d' & Ed' & G0 & G). assert (d' = d) by congruence. subst d'. clear Ed'.
    destruct (G0 a0) as (inner & Gi); [exact (passes_station _ _ _ _ _ T R (proj1 (leaves_passes _ _ _ _ L)))|].
    destruct (G a0 inner Gi) as (_ & G1 & _). destruct (proj2 (G1 a t)) as (groups & g & Gg & _); [eauto|].
    exists (emb_groups inner), (map trains groups). rewrite Jd. unfold emb_jd.
    rewrite (dget_embed station emb_groups d a0 station_inj), Gi. split; [reflexivity|]. unfold emb_groups.
    rewrite (dget_embed station (map trains) inner a station_inj), Gg. reflexivity.
  Qed.

  Lemma w_start j s : starts_at ts j s -> exists q, initially tt j s q.
  Proof.
    intros S. apply starts_inv in S as (t & tb & a & row & -> & -> & R & FS). destruct (cp_start _ _ _ _ C) as (n1 & C1 & AP).
    pose proof H as H'. destruct H' as (_ & _ & _ & _ & _ & _ & _ & _ & _ & _ & _ & _ & _ & _ & (init & Ei & Et)).
    destruct (C44_initial td t1 n1 ND C1 AP) as (d & Ed & G). assert (d = init) by congruence. subst d.
    destruct (AP t tb R) as (s & n & A). assert (s = a) by (destruct A as (r & F & _); apply (first_fun _ _ _ _ _ F FS)). subst s.
    unfold initially. rewrite Et, joined2. apply key_get. rewrite delays_keys.
    assert (X : dget (key2 t a) init = Some (inject_Z (n - n1))) by (apply G; exists t, tb, a, n; auto).
    apply dget_in in X. apply (in_map fst) in X. exact X.
  Qed.

  Lemma w_run j sp s : comes_before ts j sp s -> exists r, Spec.running tt j sp s r.
  Proof.
    intros CB. apply before_inv in CB as (t & tb & a & b & line & -> & -> & -> & R & L).
    pose proof H as H'. destruct H' as (_ & _ & _ & _ & _ & _ & _ & _ & _ & EP & _).
    destruct (C36_table_partial td None 1 AV AB (named _ _ T) (fun _ x => x)) as (d & Ed & _ & P).
    assert (d = tt_pass tt) by congruence. subst d. apply leaves_directly in L as (mid & D & _).
    destruct (P t tb a b mid (runs_key _ _ _ R) R D) as (q & G & _). exists q. unfold Spec.running. rewrite joined3. exact G.
  Qed.

  Lemma w_stop j sp s : comes_before ts j sp s -> decided ts j s -> exists q, min_stop tt j s q.
  Proof.
    intros CB D. apply before_inv in CB as (t & tb & a & b & line & -> & -> & -> & R & L).
    apply (decided_inv _ _ _ R) in D as [(row & Ir & Er) NE].
    pose proof H as H'. destruct H' as (_ & _ & _ & _ & _ & _ & _ & _ & _ & _ & _ & (prep & extra & Ep & Es & _) & _).
    destruct (C38_tables_partial td st None 1 SA BO AN AV AB (fun _ x => x)) as (stop' & extra' & Es' & SP & _).
    rewrite Es in Es'. inversion Es'; subst stop' extra'.
    destruct (SP t tb b row (runs_key _ _ _ R) R Ir Er NE) as [(q & G & _) _]. exists q. unfold min_stop. rewrite joined2. exact G.
  Qed.

  Lemma w_weights j s w : In j (ts_J ts) -> on_path ts j s -> dget (joined [j; s]) (tt_weights tt) = Some w -> decided ts j s.
  Proof.
    intros _ OP G. apply on_path_inv in OP as (t & tb & a & -> & -> & R & P). rewrite joined2 in G.
    pose proof H as H'. destruct H' as ((sk & w0 & Ek & _ & Ew & Et) & _). rewrite Et in G.
    destruct (weights_total td sk (MkWeights 1 (3 # 2) (7 # 4) 0) ND (cp_kinds _ _ _ _ C)) as (d & Ed & K).
    { intros u ub Ru. eapply last_decided_ex; eauto. exact (cp_two _ _ _ _ C u ub Ru). }
    assert (d = w0) by congruence. subst d. destruct (K _ _ G) as (u & ub & b & Ru & LD & E). apply key2_inj in E as [<- <-].
    destruct (last_decided_stays td sk t ub a ND (AV _ _ Ru) Ru Ek LD) as [P' NE]. eapply decided_made; eauto.
  Qed.

  Lemma made_well_formed d_max : ~ d_max == 0 -> well_formed ts tt d_max.
  Proof.
    intros DM. pose proof H as H'.
    destruct H' as ((sk & w & Ek & Sk & _) & Pa & J & (d & Ed & Jd) & (o & Eo & Jo) & (r & Er & Jr) & (t & Et & Jt) & (v & Ev & Jw) & _ & _ & _ & _ & Re & _).
    constructor.
    - exact (made_reserved _ _ _ _ _ _ _ T H).
    - exact w_plain.
    - intros j s I I'. apply w_known in I as (z & -> & Iz). apply w_station in I' as (a & -> & Ia). cbn.
      destruct (cp_names _ _ _ _ C a Ia) as (_ & _ & N). intros E. exact (N z Iz (eq_sym E)).
    - intros s I. apply w_station in I as (a & -> & Ia). apply (cp_names _ _ _ _ C a Ia).
    - rewrite Jd. unfold emb_jd. rewrite (dkeys_embed station emb_groups). apply nodup_map; [apply station_inj|]. apply (jd_keys _ _ _ _ Ed).
    - intros s inner I. rewrite Jd in I. apply in_map_iff in I as ([a i0] & E & I). inversion E; subst. unfold emb_groups.
      rewrite dkeys_embed. apply nodup_map; [apply station_inj|]. exact (proj2 (jd_keys _ _ _ _ Ed) _ _ I).
    - rewrite Jo. unfold emb_line. rewrite (dkeys_embed station2 (map two_trains)). apply nodup_map; [apply station2_inj|]. apply (josingle_keys _ _ _ _ Eo).
    - rewrite Jr. unfold emb_round. rewrite dkeys_embed. apply nodup_map; [apply station_inj|]. apply (get_jround_shape _ _ _ Er).
    - rewrite Jt. unfold emb_groups. rewrite dkeys_embed. apply nodup_map; [apply station_inj|]. apply (jtrack_keys _ _ _ _ Et).
    - rewrite Jw. unfold emb_switch. rewrite dkeys_embed. apply nodup_map; [apply station_inj|]. apply (jswitch_keys _ _ _ _ _ Ev).
    - rewrite J. apply nodup_map; [apply train_inj|exact ND].
    - intros j I. apply w_known in I as (z & -> & Iz). rewrite J. apply in_map. exact Iz.
    - intros j I. rewrite J in I. apply in_map_iff in I as (z & <- & Iz). apply key_runs in Iz as (tb & R). eexists. split; [apply path_of; exact R|].
      apply nodup_map; [apply station_inj|]. apply visits_once_nodup. exact (AV _ _ R).
    - exact w_start.
    - exact w_run.
    - exact w_stop.
    - exists 1. exact Re.
    - intros j s S OP. apply on_path_inv in OP as (z & tb & a & -> & -> & R & _). destruct (skipped_inv _ _ _ R S) as (b & E & f & rr & Eb & Rs).
      apply station_inj in E. subst b. exists (map station (train_important_stations f)). rewrite (path_of _ _ R). f_equal.
      change [station a] with (map station [a]). rewrite <- map_app. f_equal. apply stations_split. exists f, rr, []. auto.
    - intros j s (sk' & E & G). rewrite Sk in E. inversion E; subst. apply dget_in in G. apply in_map_iff in G as ([z a] & E' & _). inversion E'; subst.
      exists a. reflexivity.
    - intros s groups _ I. rewrite Jt in I. apply in_map_iff in I as ([a gs] & E & _). inversion E; subst. exists a. reflexivity.
    - exact w_Jd.
    - exact w_line.
    - exact w_round.
    - exact w_track.
    - exact w_switch.
    - intros j s w' Ij OP G _. eapply w_weights; eauto.
    - exact DM.
  Qed.
End Total.

(** ** All stages end *)

Lemma stages td st net t1 delays : tidy td st -> complete td st net t1 ->
  exists ts tt, made td st net t1 delays ts tt /\
    forall d_max cat p, create_linear_problem ts tt d_max cat = Ok p -> tables_to_problem td st net t1 delays d_max cat = Ok (ts, tt, p).
Proof.
  intros T C. pose proof (tidy_trains _ _ T) as ND. pose proof (tidy_stations _ _ T) as SA. pose proof (tidy_blocks _ _ T) as BO.
  pose proof (tidy_marked _ _ T) as AN. pose proof (tidy_visits _ _ T) as AV. pose proof (tidy_path _ _ T) as AB.
  destruct (cp_start _ _ _ _ C) as (n1 & C1 & AP). destruct (cp_pairs _ _ _ _ C) as [M1 M2].
  destruct (C47_total td) as (sk & Ek).
  { intros t info tb I E0. assert (R : runs td t tb) by (exists info; apply in_dget; assumption).
    destruct (cp_two _ _ _ _ C t tb R) as (s & s2 & mid & (pre & r1 & r2 & post & E & _) & _). rewrite E0 in E. destruct pre; discriminate. }
  destruct (C41_groups_partial td st None ND SA AN AV (fun _ x => x)) as (d & Ed & _).
  destruct (C40_opposing_partial td st None ND SA AN AV (fun _ x => x)) as (o & Eo & _).
  destruct (C43_placed_partial td st ND SA M1 M2) as (r & Er & _).
  destruct (C39_entries td st None ND SA AN (fun _ x => x)) as (t & Et & _).
  destruct (C42_runs td st net None ND SA AN AV (cp_switches _ _ _ _ C) (fun _ x => x)) as (v & Ev).
  destruct (C36_table_partial td None 1 AV AB (named _ _ T) (fun _ x => x)) as (pass & Ep & _).
  destruct (C37_table td st 1 ND SA AN AV AB (named _ _ T)) as (hd & Eh & _).
  destruct (C38_first td st 1 ND SA BO AN AV AB) as (prep & Epr & _).
  { intros u ub R. destruct (cp_two _ _ _ _ C u ub R) as (s & s2 & mid & D & _). exists s. apply (goes_passes _ _ _ _ D). }
  destruct (C38_tables_partial td st None 1 SA BO AN AV AB (fun _ x => x)) as (stop & extra & Es & _).
  destruct (C44_initial td t1 n1 ND C1 AP) as (init & Ei & _).
  destruct (C44_schedule td t1 n1 ND C1 (cp_times _ _ _ _ C)) as (sched & Esc & _).
  destruct (weights_total td sk (MkWeights 1 (3 # 2) (7 # 4) 0) ND (cp_kinds _ _ _ _ C)) as (w & Ew & _).
  { intros u ub R. eapply last_decided_ex; eauto. exact (cp_two _ _ _ _ C u ub R). }
  assert (X : exists ts tt0, make_train_set td st net sk = Ok ts /\ make_timetable td st sk t1 None = Ok tt0 /\
    made td st net t1 delays ts (with_delays delays tt0)).
  { unfold make_train_set, make_timetable, make_taus. rewrite Ed, Eo, Er, Et, Ev, Ep, Eh, Epr, Es, Ei, Ew, Esc. cbn [bind].
    eexists _, _. split; [reflexivity|]. split; [reflexivity|]. unfold made.
    cbn [ts_skip ts_Paths ts_J ts_Jd ts_Josingle ts_Jround ts_Jtrack ts_Jswitch ts_add_switches with_delays
       tt_pass tt_headway tt_stop tt_prep tt_res tt_schedule tt_init tt_weights t_pass t_headway t_stop t_prep t_res].
    repeat split; eauto 8. }
  destruct X as (ts & tt0 & E1 & E2 & M). exists ts, (with_delays delays tt0). split; [exact M|]. intros d_max cat p E3.
  unfold tables_to_problem. rewrite Ek. cbn [bind]. rewrite E1. cbn [bind]. rewrite E2. cbn [bind]. rewrite E3. reflexivity.
Qed.

(** C56. Complete tables give a problem, if no line of a train between two stations is part of that
    of another one. *)
Theorem C56_builds_partial : forall td st net t1 delays d_max cat,
  tidy td st -> complete td st net t1 -> no_part_lines td -> ~ d_max == 0 ->
  exists ts tt p, tables_to_problem td st net t1 delays d_max cat = Ok (ts, tt, p).
Proof.
  intros td st net t1 delays d_max cat T C NP DM. destruct (stages td st net t1 delays T C) as (ts & tt & M & B).
  destruct (C17_builds ts tt d_max cat (made_well_formed _ _ _ _ _ _ _ T C NP M d_max DM)) as (p & E). exists ts, tt, p. auto.
Qed.
Print Assumptions C56_builds_partial.
