(** * PropsLists: claims about the list helpers and the views of the timetables (C51, C63-C65) *)

From Coq Require Import List String Ascii ZArith QArith Bool Arith Lia.
From Verif Require Import Base BaseFacts DataTables SpecTables SpecSets SpecLists TableFacts SetFacts PropsTables.
Import ListNotations.
Open Scope string_scope.
Open Scope list_scope.

(** ** C63: consecutive parts and nested lists *)

Lemma slice_consecutive {A} (l : list A) j i : consecutive (slice j i l) l.
Proof.
  unfold consecutive, slice. exists (firstn j l), (skipn (i - j) (skipn j l)).
  rewrite firstn_skipn. rewrite firstn_skipn. reflexivity.
Qed.

Lemma slice_length {A} (l : list A) j i : (j <= i <= List.length l)%nat -> List.length (slice j i l) = (i - j)%nat.
Proof. intros H. unfold slice. rewrite firstn_length, skipn_length. lia. Qed.

Lemma sub_lists_in {A} (l : list A) b s :
  In s (sub_lists l b) <-> consecutive s l /\ s <> [] /\ (b = true -> (2 <= List.length s)%nat).
Proof.
  unfold sub_lists. rewrite in_flat_map. split.
  - intros (i & Ii & H). apply in_seq in Ii. apply in_flat_map in H as (j & Ij & H). apply in_seq in Ij. cbv zeta in H.
    assert (L : List.length (slice j i l) = (i - j)%nat) by (apply slice_length; lia).
    assert (E : s = slice j i l /\ (b = true -> (2 <= List.length s)%nat)).
    { destruct b; cbn [andb] in H.
      - destruct (List.length (slice j i l) <? 2)%nat eqn:X; [destruct H|]. apply Nat.ltb_ge in X.
        destruct H as [<-|[]]. split; auto.
      - destruct H as [<-|[]]. split; [reflexivity|discriminate]. }
    destruct E as [-> B]. split; [apply slice_consecutive|]. split; [|exact B].
    intros E. rewrite E in L. cbn in L. lia.
  - intros ((u & v & ->) & N & B). exists (List.length u + List.length s)%nat. split.
    { apply in_seq. rewrite !app_length. lia. }
    apply in_flat_map. exists (List.length u). split.
    { apply in_seq. destruct s; [congruence|]. cbn. lia. }
    cbv zeta. rewrite slice_mid. destruct b; cbn [andb]; [|left; reflexivity].
    destruct (List.length s <? 2)%nat eqn:X; [|left; reflexivity]. apply Nat.ltb_lt in X. specialize (B eq_refl). lia.
Qed.

Lemma nodup_flat_map {A B} (f : A -> list B) l : NoDup l -> (forall x, In x l -> NoDup (f x)) ->
  (forall x y z, In x l -> In y l -> In z (f x) -> In z (f y) -> x = y) -> NoDup (flat_map f l).
Proof.
  induction l as [|a l IH]; intros N F D; [constructor|]. cbn [flat_map]. inversion N; subst.
  assert (IH' : NoDup (flat_map f l)).
  { apply IH; auto; [intros x I; apply F; right; exact I|]. intros x y z I J. apply D; right; assumption. }
  assert (A1 : NoDup (f a)) by (apply F; left; reflexivity).
  assert (A2 : forall z, In z (f a) -> ~ In z (flat_map f l)).
  { intros z I J. apply in_flat_map in J as (y & Iy & J). assert (a = y) by (eapply D; eauto; [left; reflexivity|right; exact Iy]).
    subst. tauto. }
  revert A1 A2. generalize (f a). intros m. induction m as [|x m IHm]; intros A1 A2; [exact IH'|].
  cbn. inversion A1; subst. constructor.
  - rewrite in_app_iff. intros [I|I]; [tauto|]. apply (A2 x); [left; reflexivity|exact I].
  - apply IHm; auto. intros z I. apply A2. right. exact I.
Qed.

Lemma slice_inj {A} (l : list A) j i j' i' : NoDup l -> (j < i <= List.length l)%nat -> (j' < i' <= List.length l)%nat ->
  slice j i l = slice j' i' l -> j = j' /\ i = i'.
Proof.
  intros N H H' E. pose proof (f_equal (@List.length A) E) as L. rewrite !slice_length in L by lia.
  assert (J : j = j').
  { assert (X : nth_error (slice j i l) 0 = nth_error (slice j' i' l) 0) by congruence.
    assert (K : forall j i, (j < i <= List.length l)%nat -> nth_error (slice j i l) 0 = nth_error l j).
    { clear. intros j i H. unfold slice. destruct (i - j)%nat as [|k] eqn:D; [lia|].
      assert (X : skipn j l <> []) by (intros E; apply (f_equal (@List.length A)) in E; rewrite skipn_length in E; cbn in E; lia).
      destruct (skipn j l) as [|a r] eqn:S; [congruence|]. cbn. rewrite <- (firstn_skipn j l) at 1.
      rewrite nth_error_app2; rewrite firstn_length; [|lia]. replace (j - Nat.min j (List.length l))%nat with 0%nat by lia.
      rewrite S. reflexivity. }
    rewrite (K j i H), (K j' i' H') in X. eapply (proj1 (NoDup_nth_error l) N); [lia|exact X]. }
  subst. split; [reflexivity|lia].
Qed.

(** sub_lists returns exactly the nonempty consecutive parts (with no_single: of two or more
    elements), each once if the list has no repetition; a list of n elements has n(n+1)/2. *)
Theorem C63_parts : forall (A : Type) (l : list A),
  (forall s, In s (sub_lists l false) <-> consecutive s l /\ s <> []) /\
  (forall s, In s (sub_lists l true) <-> consecutive s l /\ (2 <= List.length s)%nat) /\
  (NoDup l -> forall no_single, NoDup (sub_lists l no_single)) /\
  (2 * List.length (sub_lists l false) = List.length l * (List.length l + 1))%nat.
Proof.
  intros A l. split; [|split; [|split]].
  - intros s. rewrite sub_lists_in. intuition discriminate.
  - intros s. rewrite sub_lists_in. intuition. subst. cbn in *. lia.
  - intros N b. unfold sub_lists.
    assert (R : forall i j z, In i (seq 0 (List.length l + 1)) -> In j (seq 0 i) ->
      In z (let s := slice j i l in if b && (List.length s <? 2)%nat then [] else [s]) -> z = slice j i l /\ (j < i <= List.length l)%nat).
    { intros i j z I J H. apply in_seq in I. apply in_seq in J. cbv zeta in H. destruct (b && _); [destruct H|].
      destruct H as [<-|[]]. split; [reflexivity|lia]. }
    apply nodup_flat_map; [apply seq_NoDup| |].
    + intros i Ii. apply nodup_flat_map; [apply seq_NoDup| |].
      * intros j _. cbv zeta. destruct (b && _); repeat constructor. intros [].
      * intros j j' z J J' H H'. apply R in H as [-> L]; auto. apply R in H' as [E L']; auto. apply (slice_inj l j i j' i N L L' E).
    + intros i i' z I I' H H'. apply in_flat_map in H as (j & J & H). apply in_flat_map in H' as (j' & J' & H').
      apply R in H as [-> L]; auto. apply R in H' as [E L']; auto. apply (slice_inj l j i j' i' N L L' E).
  - unfold sub_lists.
    assert (In1 : forall i m, List.length (flat_map (fun j => let s := slice j i l in if false && (List.length s <? 2)%nat then [] else [s]) m) = List.length m).
    { intros i m. induction m as [|j m IH]; [reflexivity|]. cbn. f_equal. exact IH. }
    assert (G : forall n, (2 * List.length (flat_map (fun i => flat_map (fun j => let s := slice j i l in if false && (List.length s <? 2)%nat then [] else [s]) (seq 0 i)) (seq 0 n)) = n * (n - 1))%nat).
    { induction n as [|n IH]; [reflexivity|]. rewrite seq_S, flat_map_app, app_length. cbn [flat_map]. rewrite app_nil_r, In1, seq_length.
      destruct n as [|k]; [reflexivity|]. replace (S k - 1)%nat with k in IH by lia. replace (S (S k) - 1)%nat with (S k) by lia.
      rewrite Nat.mul_add_distr_l. cbn [plus] in *. lia. }
    rewrite G. nia.
Qed.
Print Assumptions C63_parts.

Example C63_case :
  sub_lists ["a"; "b"; "c"] false = [["a"]; ["a"; "b"]; ["b"]; ["a"; "b"; "c"]; ["b"; "c"]; ["c"]] /\
  sub_lists ["a"; "b"; "c"] true = [["a"; "b"]; ["a"; "b"; "c"]; ["b"; "c"]].
Proof. split; reflexivity. Qed.

(** getSizeOfNestedList counts the elements that are no lists, at any depth. *)
Section NestedInd.
  Context {A : Type} (P : nested A -> Prop) (he : forall a, P (NElem a)) (hl : forall l, Forall P l -> P (NList l)).
  Fixpoint nested_all (n : nested A) : P n :=
    match n with
    | NElem a => he a
    | NList l => hl l ((fix go (l : list (nested A)) : Forall P l := match l with [] => Forall_nil P | x :: r => Forall_cons x (nested_all x) (go r) end) l)
    end.
End NestedInd.

Lemma nsize_leaves {A} (n : nested A) : nsize n = List.length (leaves_of n).
Proof.
  induction n as [a|l F] using nested_all; [reflexivity|]. cbn. induction F as [|x r Hx F IH]; [reflexivity|].
  cbn. rewrite app_length, Hx, IH. reflexivity.
Qed.

Theorem C63_size : forall (A : Type) (l : list (nested A)), getSizeOfNestedList l = List.length (flat_map leaves_of l).
Proof.
  intros A l. unfold getSizeOfNestedList.
  assert (G : forall c, fold_left (fun count e => count + nsize e)%nat l c = (c + List.length (flat_map leaves_of l))%nat).
  { induction l as [|x l IH]; intros c; cbn [fold_left flat_map]; [cbn; lia|]. rewrite IH, app_length, nsize_leaves. lia. }
  apply G.
Qed.
Print Assumptions C63_size.

Example C63_size_case :
  getSizeOfNestedList [NElem 1; NList [NElem 2; NList [NElem 3; NList []]]; NElem 4]%Z = 4%nat /\
  flat_map leaves_of [NElem 1; NList [NElem 2; NList [NElem 3; NList []]]; NElem 4]%Z = [1; 2; 3; 4]%Z.
Proof. split; reflexivity. Qed.

(** ** C64: views of the timetables *)

Lemma owners_step {A B} `{EqDec A} `{EqDec B} (k : A) (vs : list B) : forall (rd : dict B (list A)) v,
  NoDup (dkeys rd) -> (forall l, dget v rd = Some l -> l <> []) ->
  let rd' := fold_left (fun rd v => dset v (match dget v rd with Some l => l | None => [] end ++ [k]) rd) vs rd in
  NoDup (dkeys rd') /\ (forall l, dget v rd' = Some l -> l <> []) /\
  match dget v rd' with Some l => l | None => [] end =
  match dget v rd with Some l => l | None => [] end ++ repeat k (count_occ eq_dec vs v).
Proof.
  induction vs as [|x vs IH]; intros rd v N E; cbn [fold_left count_occ].
  { cbn. rewrite app_nil_r. auto. }
  cbv zeta. set (rd1 := dset x _ rd).
  assert (N1 : NoDup (dkeys rd1)).
  { unfold rd1. rewrite dkeys_dset. destruct (dmem x rd) eqn:M; [exact N|]. apply dmem_false in M.
    rewrite <- (rev_involutive (dkeys rd ++ [x])), rev_app_distr. apply NoDup_rev. cbn. constructor.
    - rewrite <- in_rev. exact M.
    - apply NoDup_rev, N. }
  assert (E1 : forall l, dget v rd1 = Some l -> l <> []).
  { intros l. unfold rd1. rewrite dget_dset. destruct (eq_dec v x); [|apply E]. intros X. inversion X. destruct (match dget x rd with Some _ => _ | None => _ end); discriminate. }
  destruct (IH rd1 v N1 E1) as (A1 & A2 & A3). split; [exact A1|]. split; [exact A2|]. rewrite A3. unfold rd1. rewrite dget_dset.
  destruct (eq_dec v x) as [->|D].
  - destruct (eq_dec x x); [|congruence]. cbn. rewrite <- app_assoc. reflexivity.
  - destruct (eq_dec x v); [congruence|]. reflexivity.
Qed.

(** Reversing a dictionary of lists: each value gets the keys that list it, in order and as often
    as they list it; other values get no entry. *)
Theorem C64_reverse : forall (A B : Type) (EA : EqDec A) (EB : EqDec B) (d : dict A (list B)),
  NoDup (dkeys (reverse_dict_of_lists d)) /\
  forall v, (owners d v = [] -> dget v (reverse_dict_of_lists d) = None) /\
            (owners d v <> [] -> dget v (reverse_dict_of_lists d) = Some (owners d v)).
Proof.
  intros A B EA EB d. unfold reverse_dict_of_lists.
  assert (G : forall (rd : dict B (list A)) v, NoDup (dkeys rd) -> (forall l, dget v rd = Some l -> l <> []) ->
    let rd' := fold_left (fun rd (kv : A * list B) => fold_left (fun rd v => dset v (match dget v rd with Some l => l | None => [] end ++ [fst kv]) rd) (snd kv) rd) d rd in
    NoDup (dkeys rd') /\ (forall l, dget v rd' = Some l -> l <> []) /\
    match dget v rd' with Some l => l | None => [] end = match dget v rd with Some l => l | None => [] end ++ owners d v).
  { induction d as [|[k vs] d IH]; intros rd v N E; cbn [fold_left].
    { unfold owners. cbn. rewrite app_nil_r. auto. }
    cbv zeta. cbn [fst snd]. destruct (owners_step k vs rd v N E) as (A1 & A2 & A3). cbv zeta in *.
    destruct (IH _ v A1 A2) as (B1 & B2 & B3). split; [exact B1|]. split; [exact B2|]. rewrite B3, A3.
    unfold owners. cbn [flat_map fst snd]. rewrite <- app_assoc. reflexivity. }
  split.
  - destruct d as [|[k vs] d]; [constructor|].
    destruct vs as [|v vs].
    + assert (X : forall rd : dict B (list A), NoDup (dkeys rd) -> NoDup (dkeys (fold_left (fun rd (kv : A * list B) => fold_left (fun rd v => dset v (match dget v rd with Some l => l | None => [] end ++ [fst kv]) rd) (snd kv) rd) ((k, []) :: d) rd))).
      { generalize ((k, [] : list B) :: d). intros e. induction e as [|[k' ws] e IH]; intros rd N; [exact N|]. cbn [fold_left]. apply IH.
        revert rd N. induction ws as [|w ws IHw]; intros rd N; [exact N|]. cbn [fold_left snd]. apply IHw.
        rewrite dkeys_dset. destruct (dmem w rd) eqn:M; [exact N|]. apply dmem_false in M.
        rewrite <- (rev_involutive (dkeys rd ++ [w])), rev_app_distr. apply NoDup_rev. cbn. constructor; [rewrite <- in_rev; exact M|apply NoDup_rev, N]. }
      apply X. constructor.
    + apply (G [] v); [constructor|discriminate].
  - intros v. destruct (G [] v) as (_ & NE & V); [constructor|discriminate|]. cbn in V. cbv zeta in NE.
    change (flat_map (fun e => repeat (fst e) (count_occ eq_dec (snd e) v)) d) with (owners d v) in *.
    match goal with |- context [dget v ?rd] => set (r := rd) in * end.
    destruct (dget v r) as [l|] eqn:Dv.
    + subst l. split; [intros X; exfalso; apply (NE _ eq_refl X)|reflexivity].
    + rewrite <- V. split; [reflexivity|congruence].
Qed.
Print Assumptions C64_reverse.

Lemma count_one {A} `{EqDec A} (l : list A) v : NoDup l -> count_occ eq_dec l v = if lmem v l then 1%nat else 0%nat.
Proof.
  intros N. destruct (lmem v l) eqn:M.
  - apply lmem_true in M. apply (count_occ_In eq_dec) in M. pose proof (proj1 (NoDup_count_occ eq_dec l) N v). lia.
  - apply lmem_false in M. apply (count_occ_not_In eq_dec) in M. exact M.
Qed.

(** get_trains_with_same_stations: every station with the trains that pass it, in the order of
    the train dictionary; other stations have no entry. *)
Theorem C64_same_stations : forall td, NoDup (dkeys td) -> all_visit_once td ->
  forall s l, (dget s (get_trains_with_same_stations td) = Some l -> l <> [] /\
     (exists keep, l = filter keep (dkeys td)) /\ forall t, In t l <-> exists tt, runs td t tt /\ passes tt s) /\
  (dget s (get_trains_with_same_stations td) = None -> forall t tt, runs td t tt -> ~ passes tt s).
Proof.
  intros td ND VO s l. unfold get_trains_with_same_stations.
  destruct (C64_reverse Z string _ _ (get_Paths td)) as [_ R]. destruct (R s) as [R0 R1]. clear R.
  assert (O : owners (get_Paths td) s = map fst (filter (fun e : Z * (list string * table) => lmem s (train_important_stations (snd (snd e)))) td)).
  { assert (G : forall td', incl td' td -> owners (get_Paths td') s = map fst (filter (fun e : Z * (list string * table) => lmem s (train_important_stations (snd (snd e)))) td')).
    { induction td' as [|[t [info tt]] td' IH]; intros I; [reflexivity|]. unfold owners, get_Paths in *. cbn [map flat_map fst snd filter].
      rewrite IH by (intros x X; apply I; right; exact X). rewrite count_one.
      - destruct (lmem s (train_important_stations tt)); reflexivity.
      - apply visits_once_nodup. apply (VO t). exists info. apply in_dget; [exact ND|]. apply I. left. reflexivity. }
    apply G, incl_refl. }
  assert (M : forall t, In t (owners (get_Paths td) s) <-> exists tt, runs td t tt /\ passes tt s).
  { intros t. rewrite O, in_map_iff. split.
    - intros ([t' [info tt]] & E & F). cbn in E. subst t'. apply filter_In in F as [F1 F2]. apply lmem_true, stations_in in F2.
      exists tt. split; [exists info; apply in_dget; auto|exact F2].
    - intros (tt & (info & G) & P). exists (t, (info, tt)). split; [reflexivity|]. apply filter_In. split; [apply dget_in, G|].
      apply lmem_true, stations_in, P. }
  assert (E : {owners (get_Paths td) s = []} + {owners (get_Paths td) s <> []}) by (destruct (owners (get_Paths td) s); [left|right]; congruence).
  destruct E as [E|E].
  - rewrite (R0 E). split; [discriminate|]. intros _ t tt Rt P. assert (I : In t []) by (rewrite <- E; apply M; eauto). destruct I.
  - rewrite (R1 E). split; [|discriminate]. intros X. inversion X; subst. split; [exact E|]. split; [|exact M].
    rewrite O. apply filter_keys; [apply Z.eq_dec|exact ND].
Qed.
Print Assumptions C64_same_stations.

(** check_common_station and check_common_blocks_elements: exactly the stations and blocks of both
    trains; stations once, blocks in the order of the first train. *)
Theorem C64_common : forall td t t' tt tt', runs td t tt -> runs td t' tt' ->
  (exists l, check_common_station td t t' = Ok l /\ NoDup l /\ forall s, In s l <-> passes tt s /\ passes tt' s) /\
  (exists l keep, check_common_blocks_elements td t t' = Ok l /\ l = filter keep (map r_block tt) /\
     forall b, In b l <-> uses tt b /\ uses tt' b).
Proof.
  intros td t t' tt tt' R R'. split.
  - unfold check_common_station, dlookup. rewrite !paths_get. destruct R as (i & ->), R' as (i' & ->). cbn [option_map bind snd].
    eexists. split; [reflexivity|]. split; [apply NoDup_nodup|]. intros s. rewrite nodup_In. unfold common_elements.
    rewrite filter_In, lmem_true, !stations_in. reflexivity.
  - unfold check_common_blocks_elements. apply time_table_ok in R. apply time_table_ok in R'. rewrite R, R'. cbn [bind].
    eexists. exists (fun e => lmem e (path_of tt')). split; [reflexivity|]. split; [reflexivity|]. intros b. unfold common_elements.
    rewrite filter_In, lmem_true. unfold path_of, uses. rewrite !in_map_iff.
    split; intros [(r & A1 & A2) (r' & B1 & B2)]; split; eauto.
Qed.
Print Assumptions C64_common.

(** The stations found from the blocks are those of the column important_station. *)
Theorem C64_from_blocks : forall st tt, stations_apart st -> annotated st tt ->
  train_important_stations1 tt st = train_important_stations tt.
Proof.
  intros st tt SA AN. unfold train_important_stations1, path_of. induction tt as [|r tt IH]; [reflexivity|].
  cbn [map flat_map train_important_stations].
  assert (AN' : annotated st tt) by (intros r' s I; apply AN; right; exact I). rewrite (IH AN').
  assert (H : forall s, r_station r = Some s <-> in_station st (r_block r) s) by (intros s; apply AN; left; reflexivity).
  assert (F : map fst (filter (fun kv : string * list string => lmem (r_block r) (snd kv)) st) =
              match r_station r with Some s => [s] | None => [] end).
  { assert (IN : forall s, In s (map fst (filter (fun kv : string * list string => lmem (r_block r) (snd kv)) st)) <-> in_station st (r_block r) s).
    { intros s. rewrite in_map_iff. split.
      - intros ([k bs] & E & F). cbn in E. subst k. apply filter_In in F as [F1 F2]. apply lmem_true in F2. exists bs. auto.
      - intros (bs & I & B). exists (s, bs). split; [reflexivity|]. apply filter_In. split; [exact I|]. apply lmem_true, B. }
    assert (NDf : NoDup (map fst (filter (fun kv : string * list string => lmem (r_block r) (snd kv)) st))).
    { destruct (filter_keys string_dec (fun kv : string * list string => lmem (r_block r) (snd kv)) st (proj1 SA)) as (keep & ->).
      apply NoDup_filter, SA. }
    destruct (r_station r) as [s|] eqn:Rs.
    - assert (S1 : in_station st (r_block r) s) by (apply H; reflexivity). apply IN in S1.
      destruct (map fst _) as [|x [|y m]] eqn:L; [destruct S1| |].
      + destruct S1 as [<-|[]]. reflexivity.
      + exfalso. assert (X1 : in_station st (r_block r) x) by (apply IN; left; reflexivity).
        assert (X2 : in_station st (r_block r) y) by (apply IN; right; left; reflexivity).
        assert (x = y) by (eapply (proj2 SA); eauto). subst. inversion NDf; subst. apply H2. left. reflexivity.
    - destruct (map fst _) as [|x m] eqn:L; [reflexivity|]. exfalso.
      assert (X1 : in_station st (r_block r) x) by (apply IN; left; reflexivity). apply H in X1. discriminate. }
  rewrite F. destruct (r_station r); reflexivity.
Qed.
Print Assumptions C64_from_blocks.

(** The times given for a train are those of the rows with any time, in order. *)
Theorem C64_times : forall tt,
  exists keep, get_arr_dep_vals tt = map (fun r => (r_arr r, r_dep r, r_approx r)) (filter keep tt) /\
    forall r, keep r = true <-> r_arr r <> None \/ r_dep r <> None \/ r_approx r <> None.
Proof.
  intros tt. exists (fun r => match r_arr r, r_dep r, r_approx r with None, None, None => false | _, _, _ => true end). split.
  - unfold get_arr_dep_vals. induction tt as [|r tt IH]; [reflexivity|]. cbn [map filter].
    destruct (r_arr r) eqn:E1, (r_dep r) eqn:E2, (r_approx r) eqn:E3; cbn [map]; rewrite ?E1, ?E2, ?E3; first [exact IH|f_equal; exact IH].
  - intros r. destruct (r_arr r), (r_dep r), (r_approx r); split; intros H; try reflexivity; try discriminate;
      [left|left|left|left|right;left|right;left|right;right|]; try discriminate. exfalso. intuition congruence.
Qed.
Print Assumptions C64_times.

Lemma abc_visit : all_visit_once abc_td.
Proof.
  intros t tt (info & R). apply dget_in in R. apply visits_once_nodup.
  repeat (destruct R as [R|R]; [inversion R; subst; clear R; cbn; repeat constructor; cbn; intuition discriminate|]). destruct R.
Qed.

Example C64_case :
  NoDup (dkeys abc_td) /\ all_visit_once abc_td /\ stations_apart abc_st /\ all_annotated abc_st abc_td /\
  get_trains_with_same_stations abc_td = [("A", [11%Z]); ("B", [11%Z; 12%Z; 13%Z]); ("C", [11%Z; 12%Z; 13%Z])] /\
  check_common_station abc_td 11 12 = Ok ["B"; "C"] /\
  check_common_blocks_elements abc_td 11 12 = Ok ["b1"; "y"; "c1"] /\
  train_important_stations1 [at_ "a1" (Some "A"); at_ "x" None; at_ "b1" (Some "B")] abc_st = ["A"; "B"] /\
  get_arr_dep_vals [block "x" None None; block "y" None (Some "15:47"); block "z" (Some "16:00") None] =
    [(None, Some "15:47", None); (Some "16:00", None, None)].
Proof.
  split; [repeat constructor; simpl; intuition discriminate|]. split; [exact abc_visit|]. split; [exact abc_apart|].
  split; [exact abc_annotated|]. repeat split; reflexivity.
Qed.

(** ** C65: common blocks and direction of two trains between two stations *)

Lemma goes_one_way tt s s2 m m' : visits_once tt -> goes tt s s2 m -> goes tt s2 s m' -> False.
Proof.
  intros V G G'. apply visits_once_nodup in V.
  assert (S1 : forall a b m, goes tt a b m -> exists u v w, train_important_stations tt = u ++ a :: v ++ b :: w).
  { intros a b k (pre & r1 & r2 & post & -> & E1 & E2).
    exists (train_important_stations pre), (train_important_stations k), (train_important_stations post).
    rewrite stations_app. cbn [train_important_stations]. rewrite E1, stations_app. cbn [train_important_stations]. rewrite E2. reflexivity. }
  destruct (S1 _ _ _ G) as (u & v & w & E). destruct (S1 _ _ _ G') as (u' & v' & w' & E').
  rewrite E in V, E'. clear - V E'.
  revert u' E'. induction u as [|x u IH]; intros u' E'.
  - destruct u' as [|y u']; cbn in E'; inversion E'; subst.
    + cbn in V. inversion V; subst. apply H2. apply in_or_app. right. left. reflexivity.
    + cbn in V. inversion V; subst. apply H2. rewrite H1. apply in_or_app. right. right. apply in_or_app. right. left. reflexivity.
  - destruct u' as [|y u']; cbn in E'; inversion E'; subst.
    + cbn in V. inversion V; subst. apply H2. apply in_or_app. right. right. apply in_or_app. right. left. reflexivity.
    + cbn in V. inversion V; subst. eapply IH; eauto.
Qed.

Lemma goes_or tt s s2 : s <> s2 -> passes tt s -> passes tt s2 -> (exists m, goes tt s s2 m) \/ (exists m, goes tt s2 s m).
Proof.
  intros N (r & I & E) (r2 & I2 & E2). apply in_split in I as (u & v & ->). apply in_app_iff in I2 as [I2|[I2|I2]].
  - right. apply in_split in I2 as (u1 & u2 & ->). exists u2, u1, r2, r, v. rewrite <- app_assoc. auto.
  - subst. congruence.
  - left. apply in_split in I2 as (v1 & v2 & ->). exists v1, u, r, r2, v2. auto.
Qed.

Lemma blocks_reverse tt s s2 m : visits_once tt -> goes tt s2 s m ->
  get_blocks_b2win_station4train tt s s2 = Ok ([], Some true).
Proof.
  intros V (pre & r1 & r2 & post & E & E1 & E2). apply visits_once_nodup in V.
  assert (ST : train_important_stations tt =
     train_important_stations pre ++ s2 :: train_important_stations m ++ s :: train_important_stations post).
  { subst tt. rewrite stations_app. cbn [train_important_stations]. rewrite E1, stations_app. cbn [train_important_stations]. rewrite E2. reflexivity. }
  unfold get_blocks_b2win_station4train. rewrite ST in *.
  assert (M1 : lmem s (train_important_stations pre ++ s2 :: train_important_stations m ++ s :: train_important_stations post) = true)
    by (apply lmem_true; apply in_or_app; right; right; apply in_or_app; right; left; reflexivity).
  assert (M2 : lmem s2 (train_important_stations pre ++ s2 :: train_important_stations m ++ s :: train_important_stations post) = true)
    by (apply lmem_true; apply in_or_app; right; left; reflexivity).
  rewrite M1, M2. cbn [negb].
  replace (lindex s2 (train_important_stations pre ++ s2 :: train_important_stations m ++ s :: train_important_stations post))
    with (Ok (List.length (train_important_stations pre))).
  2:{ symmetry. apply lindex_mid. apply NoDup_remove_2 in V. intros X. apply V, in_app_iff. auto. }
  change (train_important_stations pre ++ s2 :: train_important_stations m ++ s :: train_important_stations post)
    with (train_important_stations pre ++ (s2 :: train_important_stations m) ++ s :: train_important_stations post) in *.
  rewrite app_assoc in *. rewrite lindex_mid; [|apply NoDup_remove_2 in V; intros X; apply V, in_app_iff; auto].
  cbn [bind]. rewrite app_length. cbn [List.length].
  assert (L : (List.length (train_important_stations pre) <? List.length (train_important_stations pre) + S (List.length (train_important_stations m)))%nat = true)
    by (apply Nat.ltb_lt; lia).
  rewrite L. reflexivity.
Qed.

(** For two trains that pass both stations the answer is "same" exactly if they run the same way;
    the blocks returned lie between the stations on both ways, in the order of the first train, and
    are all common blocks if the last block of the first train before the second station is one. *)
Theorem C65_direction_partial : forall td t t' tt tt' s s2,
  runs td t tt -> runs td t' tt' -> visits_once tt -> visits_once tt' -> s <> s2 ->
  passes tt s -> passes tt s2 -> passes tt' s -> passes tt' s2 ->
  exists l same, get_common_blocks_and_direction_b2win_trains td t t' s s2 = Ok (l, same) /\
    (same = true <-> same_way tt tt' s s2) /\
    (forall b, In b l -> (between tt s s2 b \/ between tt s2 s b) /\ (between tt' s s2 b \/ between tt' s2 s b)) /\
    (forall mid u y, (goes tt s s2 mid \/ goes tt s2 s mid) -> map r_block mid = u ++ [y] ->
       (between tt' s s2 y \/ between tt' s2 s y) ->
       exists keep, l = filter keep (map r_block mid) /\
         forall b, In b l <-> In b (map r_block mid) /\ (between tt' s s2 b \/ between tt' s2 s b)).
Proof.
  intros td t t' tt tt' s s2 R R' V V' N P P2 P' P2'.
  assert (W : forall x, visits_once x -> passes x s -> passes x s2 -> exists m f,
    (do '(blocks, rev) <- get_blocks_b2win_station4train x s s2;
     match rev with
     | Some true => do '(blocks', _) <- get_blocks_b2win_station4train x s2 s; Ok (blocks', rev)
     | _ => Ok (blocks, rev)
     end) = Ok (map r_block m, Some f) /\
    (f = false -> goes x s s2 m) /\ (f = true -> goes x s2 s m)).
  { intros x Vx Px Px2. destruct (goes_or x s s2 N Px Px2) as [(m & G)|(m & G)].
    - exists m, false. rewrite (blocks_between x s s2 m Vx G). cbn [bind]. repeat split; auto. discriminate.
    - exists m, true. rewrite (blocks_reverse x s s2 m Vx G). cbn [bind]. rewrite (blocks_between x s2 s m Vx G). cbn [bind]. repeat split; auto. discriminate. }
  assert (U : forall x m f, visits_once x -> (f = false -> goes x s s2 m) -> (f = true -> goes x s2 s m) ->
    forall m', goes x s s2 m' \/ goes x s2 s m' -> map r_block m' = map r_block m).
  { intros x m f Vx F T m' [G|G]; destruct f.
    - exfalso. eapply goes_one_way; [exact Vx|exact G|exact (T eq_refl)].
    - pose proof (blocks_between x s s2 m' Vx G). pose proof (blocks_between x s s2 m Vx (F eq_refl)). congruence.
    - pose proof (blocks_between x s2 s m' Vx G). pose proof (blocks_between x s2 s m Vx (T eq_refl)). congruence.
    - exfalso. eapply goes_one_way; [exact Vx|exact (F eq_refl)|exact G]. }
  destruct (W tt V P P2) as (m & f & E & F1 & F2). destruct (W tt' V' P' P2') as (m' & f' & E' & F1' & F2').
  assert (BT : forall x k g, visits_once x -> (g = false -> goes x s s2 k) -> (g = true -> goes x s2 s k) ->
     forall b, (between x s s2 b \/ between x s2 s b) <-> In b (map r_block k)).
  { intros x k g Vx G1 G2 b. split.
    - intros [(k' & G & I)|(k' & G & I)]; rewrite <- (U x k g Vx G1 G2 k'); auto.
    - intros I. destruct g; [right|left]; exists k; auto. }
  assert (TT : train_time_table td t = Ok tt) by (apply time_table_ok, R).
  assert (TT' : train_time_table td t' = Ok tt') by (apply time_table_ok, R').
  unfold get_common_blocks_and_direction_b2win_trains. rewrite TT. cbn [bind]. rewrite E. cbn [bind]. rewrite TT'. cbn [bind]. rewrite E'. cbn [bind].
  destruct (C51_common_partial (map r_block m) (map r_block m')) as (C1 & _ & C3 & _).
  eexists. exists (eqb (Some f) (Some f')). split; [reflexivity|]. split; [|split].
  - rewrite eqb_true. unfold same_way. split.
    + intros X. inversion X; subst. destruct f'; [right|left]; (split; [exists m|exists m']); auto.
    + intros [[[k G] [k' G']]|[[k G] [k' G']]]; destruct f, f'; try reflexivity; exfalso;
        first [solve [eapply (goes_one_way tt s s2); eauto] | solve [eapply (goes_one_way tt' s s2); eauto]].
  - intros b I. unfold flatten in I. apply in_concat in I as (p & Ip & Ib). destruct (C1 p Ip) as [_ C]. destruct (C b Ib) as [A B].
    split; [apply (BT tt m f V F1 F2)|apply (BT tt' m' f' V' F1' F2')]; assumption.
  - intros mid u y G Eu By. rewrite (U tt m f V F1 F2 mid G) in *. rewrite (BT tt' m' f' V' F1' F2') in By.
    specialize (C3 u y Eu By). unfold flatten. rewrite <- C3.
    exists (fun x => if in_dec string_dec x (map r_block m') then true else false). split; [reflexivity|].
    intros b. rewrite filter_In, (BT tt' m' f' V' F1' F2'). destruct (in_dec string_dec b (map r_block m')); intuition discriminate.
Qed.
Print Assumptions C65_direction_partial.

(** A common block that is not returned: after it the first train turns off. *)
Theorem C65_missing_refuted : exists td t t' tt tt' s s2 b,
  runs td t tt /\ runs td t' tt' /\ visits_once tt /\ visits_once tt' /\
  between tt s s2 b /\ between tt' s s2 b /\
  get_common_blocks_and_direction_b2win_trains td t t' s s2 = Ok ([], true).
Proof.
  set (t1 := [at_ "a1" (Some "A"); at_ "x" None; at_ "y" None; at_ "b1" (Some "B")]).
  set (t2 := [at_ "a2" (Some "A"); at_ "x" None; at_ "z" None; at_ "b2" (Some "B")]).
  exists [(1%Z, (["KS - Os"], t1)); (2%Z, (["KS - Os"], t2))], 1%Z, 2%Z, t1, t2, "A", "B", "x".
  split; [eexists; reflexivity|]. split; [eexists; reflexivity|].
  split; [apply visits_once_nodup; cbn; repeat constructor; cbn; intuition discriminate|].
  split; [apply visits_once_nodup; cbn; repeat constructor; cbn; intuition discriminate|].
  split; [exists [at_ "x" None; at_ "y" None]; split; [exists [], (at_ "a1" (Some "A")), (at_ "b1" (Some "B")), []; auto|cbn; auto]|].
  split; [exists [at_ "x" None; at_ "z" None]; split; [exists [], (at_ "a2" (Some "A")), (at_ "b2" (Some "B")), []; auto|cbn; auto]|].
  reflexivity.
Qed.
Print Assumptions C65_missing_refuted.

Example C65_case :
  get_common_blocks_and_direction_b2win_trains abc_td 11 12 "B" "C" = Ok (["y"], false) /\
  get_common_blocks_and_direction_b2win_trains abc_td 11 13 "B" "C" = Ok (["y"], true) /\
  get_common_blocks_and_direction_b2win_trains abc_td 12 13 "C" "B" = Ok (["y"], false).
Proof. repeat split; reflexivity. Qed.

(** ** C51: the test for a consecutive part *)

Lemma str_app_assoc (a b c : string) : ((a ++ b) ++ c = a ++ b ++ c)%string.
Proof. induction a as [|x a IH]; cbn; [reflexivity|]. rewrite IH. reflexivity. Qed.

Lemma str_app_nil (a : string) : (a ++ "" = a)%string.
Proof. induction a as [|x a IH]; cbn; [reflexivity|]. rewrite IH. reflexivity. Qed.

(** The pieces of a string between its blanks *)
Fixpoint pieces (s : string) : list string :=
  match s with
  | EmptyString => [""]
  | String c s =>
      if Ascii.eqb c " " then "" :: pieces s
      else match pieces s with [] => [] | w :: ws => String c w :: ws end
  end.

Lemma pieces_cons s : exists w ws, pieces s = w :: ws.
Proof.
  induction s as [|c s (w & ws & E)]; cbn; [eauto|]. destruct (Ascii.eqb c " "); [eauto|]. rewrite E. eauto.
Qed.

Lemma pieces_plain s : no_blank s -> pieces s = [s].
Proof.
  induction s as [|c s IH]; intros N; [reflexivity|]. cbn. destruct (Ascii.eqb c " ") eqn:E.
  - apply Ascii.eqb_eq in E. subst. destruct (N "" s). reflexivity.
  - rewrite IH; [reflexivity|]. intros a b X. apply (N (String c a) b). rewrite X. reflexivity.
Qed.

Lemma pieces_app u v us a b vs : pieces u = us ++ [a] -> pieces v = b :: vs -> pieces (u ++ v) = us ++ (a ++ b)%string :: vs.
Proof.
  intros Hu Hv. revert us a Hu. induction u as [|c u IH]; intros us a Hu; cbn in Hu |- *.
  - destruct us as [|x us]; [|destruct us; discriminate]. inversion Hu; subst. exact Hv.
  - destruct (Ascii.eqb c " ").
    + destruct us as [|x us]; cbn in Hu.
      * inversion Hu. destruct (pieces_cons u) as (w & ws & E). congruence.
      * inversion Hu; subst. cbn. f_equal. apply IH. assumption.
    + destruct (pieces u) as [|w ws] eqn:E; [destruct us; discriminate|].
      destruct us as [|x us]; cbn in Hu; inversion Hu; subst.
      * rewrite (IH [] w eq_refl). reflexivity.
      * rewrite (IH (w :: us) a eq_refl). reflexivity.
Qed.

Lemma pieces_join l : l <> [] -> (forall e, In e l -> no_blank e) -> pieces (join_sp l) = l.
Proof.
  induction l as [|s l IH]; intros NE H; [congruence|]. destruct l as [|s' l].
  - apply pieces_plain, H. left. reflexivity.
  - cbn [join_sp]. rewrite (pieces_app s _ [] s "" (s' :: l)); [|apply pieces_plain, H; left; reflexivity|].
    + cbn. rewrite str_app_nil. reflexivity.
    + change (pieces (String " " (join_sp (s' :: l))) = "" :: s' :: l). cbn [pieces]. cbn [Ascii.eqb]. rewrite IH; [reflexivity|discriminate|]. intros e I. apply H. right. exact I.
Qed.

Lemma join_app l l' : l <> [] -> l' <> [] -> join_sp (l ++ l') = (join_sp l ++ " " ++ join_sp l')%string.
Proof.
  induction l as [|s l IH]; intros N N'; [congruence|]. destruct l as [|s2 l].
  - cbn [List.app join_sp]. destruct l'; [congruence|]. reflexivity.
  - change (join_sp ((s :: s2 :: l) ++ l')) with (s ++ " " ++ join_sp ((s2 :: l) ++ l'))%string. rewrite IH; [|discriminate|assumption].
    change (join_sp (s :: s2 :: l)) with (s ++ " " ++ join_sp (s2 :: l))%string. rewrite !str_app_assoc. reflexivity.
Qed.

(** For names without blanks, sublist finds exactly the consecutive parts, except that it does not
    look where the first name of the part begins and where the last one ends. *)
Theorem C51_sublist_partial : forall l1 l2, l1 <> [] -> l2 <> [] ->
  (forall e, In e (l1 ++ l2) -> no_blank e) -> (sublist l1 l2 = true <-> part_up_to_ends l1 l2).
Proof.
  intros l1 l2 N1 N2 B. unfold sublist. rewrite str_contains_iff.
  assert (P1 : pieces (join_sp l1) = l1) by (apply pieces_join; [exact N1|intros e I; apply B, in_or_app; auto]).
  assert (P2 : pieces (join_sp l2) = l2) by (apply pieces_join; [exact N2|intros e I; apply B, in_or_app; auto]).
  split.
  - intros (u & v & E). rewrite E in P2.
    destruct (pieces_cons v) as (y & vs & Ev). destruct (exists_last (l := pieces u)) as (us & x & Eu).
    { destruct (pieces_cons u) as (? & ? & ->). discriminate. }
    destruct l1 as [|a l1]; [congruence|]. destruct l1 as [|a2 l1].
    + left. exists a, us, vs, x, y. split; [reflexivity|].
      rewrite (pieces_app u _ us x (a ++ y) vs Eu) in P2; [|rewrite (pieces_app _ v [] a y vs P1 Ev); reflexivity]. symmetry. exact P2.
    + right. destruct (exists_last (l := a2 :: l1)) as (mid & b & Em); [discriminate|]. rewrite Em in *.
      exists a, mid, b, us, vs, x, y. split; [reflexivity|].
      rewrite (pieces_app u _ us x a (mid ++ (b ++ y)%string :: vs) Eu) in P2; [symmetry; exact P2|].
      rewrite (pieces_app _ v (a :: mid) b y vs P1 Ev). reflexivity.
  - assert (J : forall x l, join_sp ((x ++ fst l)%string :: snd l) = (x ++ join_sp (fst l :: snd l))%string).
    { intros x [e l]. cbn [fst snd]. destruct l; cbn [join_sp]; [reflexivity|]. rewrite str_app_assoc. reflexivity. }
    assert (L : forall l b y, join_sp (l ++ [(b ++ y)%string]) = (join_sp (l ++ [b]) ++ y)%string).
    { intros l b y. destruct l as [|e l]; [reflexivity|]. rewrite !join_app by discriminate. cbn [join_sp]. rewrite !str_app_assoc. reflexivity. }
    assert (C : forall pre m post, m <> [] -> exists u v, join_sp (pre ++ m ++ post) = (u ++ join_sp m ++ v)%string).
    { intros pre m post M.
      assert (C1 : exists v, join_sp (m ++ post) = (join_sp m ++ v)%string).
      { destruct post as [|e post]; [exists ""; rewrite app_nil_r, str_app_nil; reflexivity|]. rewrite join_app by (assumption || discriminate). eauto. }
      destruct C1 as (v & Ev). destruct pre as [|e pre]; [exists "", v; exact Ev|].
      rewrite join_app; [|discriminate|destruct m; [congruence|discriminate]]. rewrite Ev. exists (join_sp (e :: pre) ++ " ")%string, v.
      rewrite !str_app_assoc. reflexivity. }
    intros [(a & pre & post & x & y & -> & ->)|(a & mid & b & pre & post & x & y & -> & ->)].
    + destruct (C pre [(x ++ a ++ y)%string] post) as (u & v & E); [discriminate|]. rewrite E. cbn [join_sp].
      exists (u ++ x)%string, (y ++ v)%string. rewrite !str_app_assoc. reflexivity.
    + destruct (C pre ((x ++ a)%string :: mid ++ [(b ++ y)%string]) post) as (u & v & E); [discriminate|].
      replace (pre ++ (x ++ a)%string :: mid ++ (b ++ y)%string :: post) with (pre ++ ((x ++ a)%string :: mid ++ [(b ++ y)%string]) ++ post)
        by (cbn; rewrite <- app_assoc; reflexivity).
      rewrite E. change ((x ++ a)%string :: mid ++ [(b ++ y)%string]) with (((x ++ a)%string :: mid) ++ [(b ++ y)%string]).
      rewrite L. change (((x ++ a)%string :: mid) ++ [b]) with ((x ++ fst (a, (mid ++ [b])%list))%string :: snd (a, mid ++ [b])). rewrite J. cbn [fst snd].
      exists (u ++ x)%string, (y ++ v)%string. rewrite !str_app_assoc. reflexivity.
Qed.
Print Assumptions C51_sublist_partial.

Example C51_sublist_case : sublist ["b"; "c"] ["a"; "b"; "c"] = true /\ sublist ["a"; "c"] ["a"; "b"; "c"] = false /\
  sublist ["ab"] ["a"; "b"] = false /\ sublist ["b"; "c"] ["ab"; "cd"] = true.
Proof. repeat split. Qed.
