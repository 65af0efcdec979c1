(** * TimeFacts: facts about dictionaries of times, keys and sums *)

From Coq Require Import List String Ascii ZArith QArith Qabs Qround Bool Arith Lia Lqa.
From Verif Require Import Base BaseFacts DataTables DataSets DataTimes SpecTables SpecSets SpecDurations TableFacts SetFacts
  QuboFacts PropsTables PropsSets PropsSwitch.
Import ListNotations.
Open Scope string_scope.
Open Scope list_scope.

(** ** Dictionaries filled entry by entry *)

Lemma dupdate_app {V} (d : dict string V) a b : dupdate d (a ++ b) = dupdate (dupdate d a) b.
Proof. unfold dupdate. rewrite fold_left_app. reflexivity. Qed.

Lemma fold_entries {X V} (f : dict string V -> X -> res (dict string V)) (F : X -> res (list (string * V))) l :
  (forall d x, In x l -> f d x = do es <- F x; Ok (dupdate d es)) ->
  forall d, foldM f l d = do ess <- mapM F l; Ok (dupdate d (List.concat ess)).
Proof.
  induction l as [|x l IH]; intros H d; [reflexivity|].
  cbn [foldM mapM]. rewrite H by (left; reflexivity). destruct (F x) as [es|e]; [|reflexivity]. cbn [bind].
  rewrite IH by (intros; apply H; right; auto). destruct (mapM F l) as [ess|e]; [|reflexivity]. cbn [bind List.concat].
  rewrite dupdate_app. reflexivity.
Qed.

Lemma dupdate_get {V} es : forall (d : dict string V) k v, dget k (dupdate d es) = Some v -> dget k d = Some v \/ In (k, v) es.
Proof.
  induction es as [|[k' v'] es IH]; intros d k v H; [left; exact H|].
  unfold dupdate in H. simpl in H. apply IH in H as [H|H]; [|right; right; exact H].
  rewrite dget_dset in H. destruct (eq_dec k k') as [->|N]; [|auto]. inversion H. right. left. reflexivity.
Qed.

Lemma dupdate_has {V} es : forall (d : dict string V) k, In k (map fst es) -> exists v, dget k (dupdate d es) = Some v /\ In (k, v) es.
Proof.
  induction es as [|[k' v'] es IH] using rev_ind; intros d k H; [destruct H|].
  rewrite dupdate_app. unfold dupdate at 1. simpl. rewrite dget_dset. destruct (eq_dec k k') as [->|N].
  - exists v'. split; auto. apply in_app_iff. right. left. reflexivity.
  - rewrite map_app, in_app_iff in H. destruct H as [H|[H|[]]]; [|simpl in H; congruence].
    destruct (IH d k H) as (v & A & B). exists v. split; auto. apply in_app_iff. auto.
Qed.

Lemma entries_get {V} (es : list (string * V)) k v :
  (forall v v', In (k, v) es -> In (k, v') es -> v = v') ->
  (dget k (dupdate [] es) = Some v <-> In (k, v) es).
Proof.
  intros U. split.
  - intros H. apply dupdate_get in H as [H|H]; [discriminate|exact H].
  - intros H. assert (K : In k (map fst es)) by (apply in_map_iff; exists (k, v); auto).
    destruct (dupdate_has es [] k K) as (v' & A & B). rewrite A. f_equal. apply U; auto.
Qed.

Lemma mapM_concat_in {X V} (F : X -> res (list V)) l ess e : mapM F l = Ok ess ->
  (In e (List.concat ess) <-> exists x es, In x l /\ F x = Ok es /\ In e es).
Proof.
  intros M. apply mapM_ok in M. rewrite in_concat. split.
  - intros (es & H & I). induction M as [|x y l q HF M IH]; [destruct H|]. destruct H as [->|H].
    + exists x, es. split; [left; reflexivity|]. auto.
    + destruct (IH H) as (x' & es' & A & B). exists x', es'. split; [right|]; auto.
  - intros (x & es & H & E & I). induction M as [|x' y l q HF M IH]; [destruct H|]. destruct H as [->|H].
    + exists y. split; [left; reflexivity|]. congruence.
    + destruct (IH H) as (es' & A & B). exists es'. split; [right|]; auto.
Qed.

Lemma mapM_cons {X Y} (F : X -> res Y) x l : mapM F (x :: l) = do y <- F x; do ys <- mapM F l; Ok (y :: ys).
Proof. reflexivity. Qed.

Lemma mapM_total {X Y} (F : X -> res Y) l : (forall x, In x l -> exists y, F x = Ok y) -> exists ys, mapM F l = Ok ys.
Proof.
  induction l as [|x l IH]; intros H; [eexists; reflexivity|]. cbn [mapM].
  destruct (H x (or_introl eq_refl)) as (y & ->). destruct IH as (ys & ->); [intros; apply H; right; auto|]. cbn. eauto.
Qed.

(** ** Keys *)

Definition not_us (c : ascii) : bool := negb (Ascii.eqb c "_"%char).

Lemma no_us_allc s : no_underscore s <-> allc not_us s = true.
Proof.
  unfold no_underscore. split.
  - induction s as [|c s IH]; intros H; [reflexivity|]. cbn [allc]. apply andb_true_iff. split.
    + unfold not_us. destruct (Ascii.eqb c "_") eqn:E; auto. apply Ascii.eqb_eq in E. subst. exfalso. apply (H "" s). reflexivity.
    + apply IH. intros a b E. apply (H (String c a) b). rewrite E. reflexivity.
  - intros H a b ->. rewrite allc_app in H. cbn in H. rewrite andb_false_r in H. discriminate.
Qed.

Lemma number_no_us z : no_underscore (str_of_Z z).
Proof.
  apply no_us_allc. unfold str_of_Z, DecimalString.NilZero.string_of_int.
  assert (H : forall u, allc not_us (DecimalString.NilEmpty.string_of_uint u) = true)
    by (induction u; cbn; auto).
  assert (H' : forall u, allc not_us (DecimalString.NilZero.string_of_uint u) = true)
    by (intros []; cbn; auto).
  destruct (Z.to_int z) as [u|u]; cbn [allc]; rewrite ?H'; reflexivity.
Qed.

Lemma us_split a a' r r' : no_underscore a -> no_underscore a' ->
  (a ++ "_" ++ r = a' ++ "_" ++ r')%string -> a = a' /\ r = r'.
Proof.
  rewrite !no_us_allc. revert a'; induction a as [|c a IH]; intros [|c' a'] H H' E; cbn in *.
  - inversion E; auto.
  - inversion E; subst. cbn in H'. discriminate.
  - inversion E; subst. cbn in H. discriminate.
  - apply andb_true_iff in H as [_ H2]. apply andb_true_iff in H' as [_ H2'].
    inversion E; subst. destruct (IH a' H2 H2' H1); subst; auto.
Qed.

Lemma key2_inj t s t' s' : key2 t s = key2 t' s' -> t = t' /\ s = s'.
Proof.
  unfold key2. intros E. apply us_split in E as [E1 E2]; try apply number_no_us. split; auto. apply str_of_Z_inj. exact E1.
Qed.

Lemma key3_inj t s s2 t' s' s2' : no_underscore s -> no_underscore s' ->
  key3 t s s2 = key3 t' s' s2' -> t = t' /\ s = s' /\ s2 = s2'.
Proof.
  unfold key3. intros N N' E. apply us_split in E as [E1 E2]; try apply number_no_us.
  apply us_split in E2 as [E2 E3]; auto. split; auto. apply str_of_Z_inj. exact E1.
Qed.

Lemma key4_inj t u s s2 t' u' s' s2' : no_underscore s -> no_underscore s' ->
  key4 t u s s2 = key4 t' u' s' s2' -> t = t' /\ u = u' /\ s = s' /\ s2 = s2'.
Proof.
  unfold key4. intros N N' E. apply us_split in E as [E1 E2]; try apply number_no_us.
  apply us_split in E2 as [E2 E3]; try apply number_no_us.
  apply us_split in E3 as [E3 E4]; auto. split; [apply str_of_Z_inj; exact E1|]. split; [apply str_of_Z_inj; exact E2|]. auto.
Qed.

(** ** Rounding *)

Lemma round_ok r x : in_resolution r x (round_if r x).
Proof.
  unfold round_if. split.
  - intros N. apply Z.eqb_neq in N. rewrite N. reflexivity.
  - intros ->. cbn [Z.eqb Pos.eqb]. exists (py_round x). split; [reflexivity|]. unfold py_round.
    pose proof (Qfloor_le x) as A. pose proof (Qlt_floor x) as B. rewrite inject_Z_plus in B. change (inject_Z 1) with 1 in B.
    set (f := inject_Z (Qfloor x)) in *.
    destruct (Qcompare_spec (x - f) (1 # 2)) as [C|C|C].
    + destruct (Z.even (Qfloor x)) eqn:EV.
      * fold f. split; [apply Qabs_Qle_condition; lra|]. auto.
      * rewrite inject_Z_plus. change (inject_Z 1) with 1. fold f. split; [apply Qabs_Qle_condition; lra|].
        intros _. rewrite Z.even_add, EV. reflexivity.
    + fold f. split; [apply Qabs_Qle_condition; lra|]. intros X. exfalso.
      rewrite Qabs_pos in X by lra. lra.
    + rewrite inject_Z_plus. change (inject_Z 1) with 1. fold f. split; [apply Qabs_Qle_condition; lra|]. intros X. exfalso.
      rewrite Qabs_neg in X by lra. lra.
Qed.

Lemma in_resolution_eq r x y q : x == y -> in_resolution r x q -> in_resolution r y q.
Proof.
  intros E [A B]. split.
  - intros N. rewrite <- E. auto.
  - intros N. destruct (B N) as (z & Ez & Z1 & Z2). exists z. rewrite <- E. auto.
Qed.

(** ** Times of blocks *)

Lemma running_app a b : running (a ++ b) == running a + running b.
Proof. induction a as [|r a IH]; simpl; [lra|]. rewrite IH. lra. Qed.

Lemma block_time tt r : NoDup (map r_block tt) -> In r tt -> get_passing_time_block (r_block r) tt = Ok (time_of r).
Proof.
  intros ND H. unfold get_passing_time_block.
  assert (F : filter (fun x => eqb (r_block x) (r_block r)) tt = [r]).
  { induction tt as [|x tt IH]; [destruct H|]. simpl in ND. inversion ND as [|? ? NX ND']; subst. simpl.
    destruct (eqb (r_block x) (r_block r)) eqn:E.
    - apply eqb_eq in E. destruct H as [->|H].
      + f_equal. apply filter_none. intros y Hy. apply eqb_false. intros Q. apply NX. rewrite <- Q. apply in_map. exact Hy.
      + exfalso. apply NX. rewrite E. apply in_map. exact H.
    - destruct H as [->|H]; [rewrite eqb_refl in E; discriminate|]. auto. }
  rewrite F. reflexivity.
Qed.

Lemma row_found tt r : NoDup (map r_block tt) -> In r tt -> first_row tt (r_block r) = Ok r.
Proof.
  intros ND H. unfold first_row.
  assert (F : filter (fun x => eqb (r_block x) (r_block r)) tt = [r]).
  { induction tt as [|x tt IH]; [destruct H|]. simpl in ND. inversion ND as [|? ? NX ND']; subst. simpl.
    destruct (eqb (r_block x) (r_block r)) eqn:E.
    - apply eqb_eq in E. destruct H as [->|H].
      + f_equal. apply filter_none. intros y Hy. apply eqb_false. intros Q. apply NX. rewrite <- Q. apply in_map. exact Hy.
      + exfalso. apply NX. rewrite E. apply in_map. exact H.
    - destruct H as [->|H]; [rewrite eqb_refl in E; discriminate|]. auto. }
  rewrite F. reflexivity.
Qed.

Lemma block_times tt l : NoDup (map r_block tt) -> incl l tt ->
  exists ts, mapM (fun b => get_passing_time_block b tt) (map r_block l) = Ok ts /\ ts = map time_of l.
Proof.
  intros ND. induction l as [|r l IH]; intros I; [exists []; auto|]. cbn [map mapM].
  rewrite (block_time tt r ND) by (apply I; left; reflexivity). cbn [bind].
  destruct IH as (ts & -> & ->); [intros x Hx; apply I; right; exact Hx|]. cbn [bind]. eauto.
Qed.

Lemma qsum_times l : qsum (map time_of l) == running l.
Proof. induction l as [|r l IH]; simpl; [reflexivity|]. rewrite IH. reflexivity. Qed.
