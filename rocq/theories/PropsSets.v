(** * PropsSets: claims about the sets of trains (C39-C43) *)

From Coq Require Import List String Ascii ZArith QArith Bool Arith Lia.
From Verif Require Import Base BaseFacts DataTables DataSets SpecTables SpecSets TableFacts SetFacts PropsTables.
Import ListNotations.
Open Scope string_scope.
Open Scope list_scope.

Lemma foldM_prefix {A B} (P : list A -> B -> Prop) (f : B -> A -> res B) l acc :
  P [] acc ->
  (forall pre x post acc, l = pre ++ x :: post -> P pre acc ->
     exists acc', f acc x = Ok acc' /\ P (pre ++ [x]) acc') ->
  exists r, foldM f l acc = Ok r /\ P l r.
Proof.
  intros H0 HS. assert (G : forall post pre acc, l = pre ++ post -> P pre acc ->
    exists r, foldM f post acc = Ok r /\ P l r).
  { induction post as [|x post IH]; intros pre a E Hp; simpl.
    - rewrite app_nil_r in E. subst. eauto.
    - destruct (HS pre x post a E Hp) as (a' & -> & Hp'). cbn [bind].
      apply (IH (pre ++ [x])); [rewrite <- app_assoc; exact E|exact Hp']. }
  apply (G l [] acc eq_refl H0).
Qed.

Lemma nodup_snoc {A} (l : list A) x : NoDup l -> ~ In x l -> NoDup (l ++ [x]).
Proof.
  intros N H. apply (Permutation.Permutation_NoDup (l := x :: l)).
  - apply Permutation.Permutation_cons_append.
  - constructor; auto.
Qed.

Lemma nodup_app {A} (l m : list A) : NoDup l -> NoDup m -> (forall x, In x l -> ~ In x m) -> NoDup (l ++ m).
Proof.
  induction l as [|x l IH]; simpl; intros N M D; auto. inversion N; subst. constructor.
  - rewrite in_app_iff. intros [X|X]; [contradiction|]. exact (D x (or_introl eq_refl) X).
  - apply IH; auto.
Qed.

Lemma filter_filter {A} (p q : A -> bool) l : filter p (filter q l) = filter (fun x => q x && p x) l.
Proof. induction l as [|x l IH]; simpl; auto. destruct (q x); simpl; auto. destruct (p x); rewrite IH; auto. Qed.

Lemma uses_path tt b : uses tt b <-> In b (path_of tt).
Proof.
  unfold uses, path_of. rewrite in_map_iff. split; intros (r & A & B); exists r; auto.
Qed.

(** ** C39: station tracks *)

Lemma append_at_map {A B} `{EqDec B} (f : B -> list A) (g : B -> list A) (x : A) cb b i :
  NoDup cb -> lindex b cb = Ok i ->
  (forall c, In c cb -> g c = if eqb c b then f c ++ [x] else f c) ->
  append_at i x (map f cb) = map g cb.
Proof.
  revert i; induction cb as [|c cb IH]; intros i ND L G; simpl in L; [discriminate|].
  inversion ND; subst. destruct (eq_dec b c) as [->|N].
  - inversion L; subst. simpl. rewrite (G c) by (left; reflexivity). rewrite eqb_refl. f_equal.
    apply map_ext_in. intros a Ha. rewrite (G a) by (right; exact Ha).
    assert (E : eqb a c = false) by (apply eqb_false; congruence). rewrite E. reflexivity.
  - inv_bind L. inversion L; subst. simpl. rewrite (G c) by (left; reflexivity).
    assert (EE : eqb c b = false) by (apply eqb_false; congruence). rewrite EE. f_equal.
    apply IH; auto. intros; apply G; right; auto.
Qed.

Section Tracks.
Variables (td : train_dict) (st : station_blocks) (s : string) (bs : list string).

Definition track_of (j : Z) : list string :=
  match dget j td with Some (_, rows) => filter (fun b => lmem b (path_of rows)) bs | None => [] end.

Lemma track_read j tt : NoDup (dkeys st) -> In (s, bs) st -> runs td j tt -> passes tt s ->
  blocks_list_4station tt s st = Ok (track_of j).
Proof.
  intros ND HS (i & R) P. unfold blocks_list_4station, track_of. rewrite R.
  assert (M : lmem s (train_important_stations tt) = true) by (apply lmem_true; apply stations_in; exact P).
  rewrite M. cbn [negb]. apply in_dget in HS; auto. unfold dlookup. rewrite HS. reflexivity.
Qed.

Lemma subroutine_ok trains : NoDup (dkeys st) -> In (s, bs) st ->
  (forall j, In j trains -> exists tt, runs td j tt /\ passes tt s) ->
  exists cb,
    let inc := filter (fun j => negb (lmem (track_of j) block_exclusion_list)) trains in
    jtrack_subroutine td s st trains =
      Ok ([] :: map (fun b => filter (fun j => eqb (track_of j) b) inc) cb) /\
    NoDup cb /\ forall b, In b cb <-> In b (map track_of inc).
Proof.
  intros ND HS HT. unfold jtrack_subroutine.
  set (keep := fun j => negb (lmem (track_of j) block_exclusion_list)).
  set (P := fun (pre : list Z) (acc : list (list string) * list (list Z)) =>
    snd acc = [] :: map (fun b => filter (fun j => eqb (track_of j) b) (filter keep pre)) (fst acc) /\
    NoDup (fst acc) /\ forall b, In b (fst acc) <-> In b (map track_of (filter keep pre))).
  match goal with |- context [foldM ?f trains ?a] => destruct (foldM_prefix P f trains a) as (r & -> & H) end.
  - split; [reflexivity|]. split; [constructor|]. simpl. tauto.
  - intros pre j post [cb vs] E (V & N & I). cbn [fst snd] in V, N, I |- *.
    destruct (HT j) as (tt & R & PS); [rewrite E; apply in_app_iff; right; left; reflexivity|].
    assert (TT := R). apply time_table_ok in TT. rewrite TT. cbn [bind].
    rewrite (track_read j tt ND HS R PS). cbn [bind]. unfold P. rewrite filter_app. simpl filter.
    fold (keep j). destruct (keep j) eqn:K.
    + destruct (lmem (track_of j) cb) eqn:M.
      * apply lmem_true in M. destruct (proj1 (lindex_in _ _) M) as (i & L). rewrite L. cbn [bind].
        eexists. split; [reflexivity|]. cbn [fst snd]. split; [|split; [exact N|]].
        -- rewrite V. rewrite Nat.add_1_r. simpl. f_equal. apply (append_at_map _ _ j cb (track_of j) i N L).
           intros c Hc. rewrite filter_app. simpl. rewrite (eqb_sym c). destruct (eqb (track_of j) c); auto.
           apply app_nil_r.
        -- intros b. rewrite map_app, in_app_iff, I. simpl. split; [auto|]. intros [X|[<-|[]]]; auto. apply I. exact M.
      * apply lmem_false in M. eexists. split; [reflexivity|]. cbn [fst snd]. split; [|split].
        -- rewrite V, map_app. simpl. f_equal. f_equal.
           ++ apply map_ext_in. intros b Hb. rewrite filter_app. simpl.
              assert (E' : eqb (track_of j) b = false) by (apply eqb_false; intros <-; contradiction).
              rewrite E', app_nil_r. reflexivity.
           ++ f_equal. rewrite filter_app. simpl. rewrite eqb_refl.
              rewrite filter_none; [reflexivity|]. intros x Hx. apply eqb_false. intros X. apply M. apply I.
              apply in_map_iff. exists x. auto.
        -- apply nodup_snoc; auto.
        -- intros b. rewrite map_app, !in_app_iff, I. simpl. tauto.
    + eexists. split; [reflexivity|]. cbn [fst snd]. rewrite app_nil_r. auto.
  - destruct H as (V & N & I). cbn [bind]. exists (fst r). cbv zeta. rewrite V. auto.
Qed.
End Tracks.

Lemma filter_single {A} (p : A -> bool) l x : NoDup l ->
  (filter p l = [x] <-> In x l /\ forall b, In b l -> (p b = true <-> b = x)).
Proof.
  intros ND. split.
  - intros E. assert (I : In x (filter p l)) by (rewrite E; left; reflexivity).
    apply filter_In in I as [I1 I2]. split; auto. intros b Hb. split.
    + intros Pb. assert (I : In b (filter p l)) by (apply filter_In; auto). rewrite E in I.
      destruct I as [<-|[]]; reflexivity.
    + intros ->. exact I2.
  - intros [I H]. apply in_split in I as (u & v & ->). apply NoDup_remove_2 in ND.
    rewrite filter_app. simpl.
    assert (PX : p x = true) by (apply H; [apply in_app_iff; right; left; reflexivity|reflexivity]).
    rewrite PX, !filter_none; [reflexivity| |].
    + intros b Hb. apply not_true_is_false. intros Pb. apply H in Pb; [|apply in_app_iff; right; right; exact Hb].
      subst. apply ND. apply in_app_iff. auto.
    + intros b Hb. apply not_true_is_false. intros Pb. apply H in Pb; [|apply in_app_iff; left; exact Hb].
      subst. apply ND. apply in_app_iff. auto.
Qed.

Lemma filter_same {A} (p q : A -> bool) l :
  filter p l = filter q l <-> forall b, In b l -> p b = q b.
Proof.
  split; [|apply filter_ext_in]. intros E b Hb. destruct (p b) eqn:P.
  - assert (I : In b (filter q l)) by (rewrite <- E; apply filter_In; auto). apply filter_In in I. symmetry. tauto.
  - destruct (q b) eqn:Q; auto. assert (I : In b (filter p l)) by (rewrite E; apply filter_In; auto).
    apply filter_In in I. destruct I. congruence.
Qed.

Lemma station_unique st s bs b : stations_apart st -> In (s, bs) st -> (in_station st b s <-> In b bs).
Proof.
  intros [ND _] HS. split.
  - intros (bs' & HS' & Hb). apply in_dget in HS; auto. apply in_dget in HS'; auto. congruence.
  - intros Hb. exists bs. auto.
Qed.

Lemma track_same td st s bs t t' tt tt' : stations_apart st -> In (s, bs) st ->
  runs td t tt -> runs td t' tt' ->
  (track_of td bs t = track_of td bs t' <-> same_track st s tt tt').
Proof.
  intros SA HS (i & R) (i' & R'). unfold track_of. rewrite R, R', filter_same. unfold same_track.
  split; intros H b Hb.
  - apply (station_unique st s bs b SA HS) in Hb. specialize (H b Hb). rewrite !uses_path, <- !lmem_true, H. tauto.
  - apply (station_unique st s bs b SA HS) in Hb. specialize (H b Hb). rewrite !uses_path, <- !lmem_true in H.
    destruct (lmem b (path_of tt)), (lmem b (path_of tt')); auto; intuition discriminate.
Qed.

Lemma track_excluded td st s bs t tt : stations_apart st -> blocks_once st -> In (s, bs) st -> runs td t tt ->
  (lmem (track_of td bs t) block_exclusion_list = true <->
   exists x, In x depot_tracks /\ only_track st s tt x).
Proof.
  intros SA BO HS (i & R). rewrite lmem_true.
  assert (X : In (track_of td bs t) block_exclusion_list <-> exists x, In x depot_tracks /\ track_of td bs t = [x]).
  { unfold block_exclusion_list, depot_tracks. split.
    - intros [H|[H|[H|[]]]]; eexists; (split; [|symmetry; exact H]); simpl; auto.
    - intros (x & [<-|[<-|[<-|[]]]] & ->); simpl; auto. }
  rewrite X. unfold track_of. rewrite R. split; intros (x & Hx & H); exists x; split; auto.
  - apply filter_single in H as [H1 H2]; [|eapply BO; eauto]. split; [exists bs; auto|].
    intros b Hb. apply (station_unique st s bs b SA HS) in Hb. rewrite uses_path, <- lmem_true. apply H2. exact Hb.
  - destruct H as [H1 H2]. apply filter_single; [eapply BO; eauto|].
    split; [apply (station_unique st s bs x SA HS); exact H1|]. intros b Hb.
    rewrite lmem_true, <- uses_path. apply H2. exists bs. auto.
Qed.

Lemma trains_at_in td st only s l : NoDup (dkeys td) -> stations_apart st -> all_annotated st td ->
  dget s (get_trains_at_station td st only) = Some l ->
  (exists bs, In (s, bs) st) /\ (exists keep, l = filter keep (dkeys td)) /\
  forall t, In t l <-> exists tt, runs td t tt /\ passes tt s /\ (only = true -> ~ ends_at tt s).
Proof.
  intros ND SA AN H. destruct (C52_trains_at_station td st only ND SA AN) as [_ K].
  split; [|apply K; exact H]. apply dget_in in H. unfold get_trains_at_station in H.
  apply in_map_iff in H as ([s' bs] & E & HS). inversion E; subst. eauto.
Qed.

Lemma NoDup_groups {A B} `{EqDec B} (f : A -> B) inc cb : NoDup inc -> NoDup cb ->
  NoDup (List.concat (map (fun b => filter (fun j => eqb (f j) b) inc) cb)).
Proof.
  intros NI NC. induction cb as [|b cb IH]; simpl; [constructor|]. inversion NC; subst.
  apply nodup_app; auto.
  - apply NoDup_filter. exact NI.
  - intros x Hx Hy. apply filter_In in Hx as [_ Hx]. apply eqb_eq in Hx.
    apply in_concat in Hy as (g & Hg & Hy). apply in_map_iff in Hg as (c & <- & Hc).
    apply filter_In in Hy as [_ Hy]. apply eqb_eq in Hy. rewrite Hx in Hy. subst c. contradiction.
Qed.

(** The groups of a station: nonempty, each in the order of the dictionary, no train twice,
    exactly the trains of the station that do not stand on one of the depot tracks alone, and
    two of them together exactly if they use the same blocks of the station. *)
Theorem C39_groups : forall td st imp d,
  NoDup (dkeys td) -> stations_apart st -> blocks_once st -> all_annotated st td ->
  jtrack td st imp = Ok d ->
  forall s groups, dget s d = Some groups ->
    asked st imp s /\ ~ In s no_track_groups /\
    (forall g, In g groups -> g <> [] /\ exists keep, g = filter keep (dkeys td)) /\
    NoDup (List.concat groups) /\
    (forall t, In t (List.concat groups) <->
       exists tt, runs td t tt /\ passes tt s /\
         ~ exists x, In x depot_tracks /\ only_track st s tt x) /\
    (forall g t t' tt tt', In g groups -> In t g -> In t' (List.concat groups) ->
       runs td t tt -> runs td t' tt' -> (In t' g <-> same_track st s tt tt')).
Proof.
  intros td st imp d ND SA BO AN H s groups HG. unfold jtrack in H. inv_bind H. inversion H; subst d. clear H.
  assert (HG' : exists vs, dget s a = Some vs /\ groups = filter (fun el => negb (Nat.eqb (List.length el) 0)) vs).
  { unfold jtrack_dict_generation in HG.
    rewrite (dget_map (fun vs => filter (fun el => negb (Nat.eqb (List.length el) 0)) vs) a s) in HG.
    destruct (dget s a) as [vs|]; [|discriminate]. inversion HG. eauto. }
  clear HG. destruct HG' as (vs & HV & ->).
  pose proof (fold_table (fun s => negb (lmem s station_exclusion_list))
    (fun s => do trains <- dlookup s (get_trains_at_station td st false); jtrack_subroutine td s st trains)
    (imp_stations_list st imp) [] a) as FT.
  assert (E' : foldM (fun d s => if negb (lmem s station_exclusion_list) then
      do v <- (do trains <- dlookup s (get_trains_at_station td st false); jtrack_subroutine td s st trains);
      Ok (dset s v d) else Ok d) (imp_stations_list st imp) [] = Ok a).
  { rewrite <- E. apply foldM_ext. intros acc x _. destruct (negb (lmem x station_exclusion_list)); auto.
    destruct (dlookup x (get_trains_at_station td st false)); auto. }
  apply (FT E' s vs) in HV. clear FT E E'. destruct HV as [(IN & NE & HV)|[_ X]]; [|discriminate].
  inv_bind HV. unfold dlookup in E. destruct (dget s (get_trains_at_station td st false)) as [l|] eqn:D; [|discriminate].
  inversion E; subst a0. clear E.
  destruct (trains_at_in td st false s l ND SA AN D) as ((bs & HS) & (keep0 & KL) & HT).
  destruct (subroutine_ok td st s bs l (proj1 SA) HS) as (cb & E & NC & IC).
  { intros j Hj. apply HT in Hj as (tt & A & B & _). eauto. }
  cbv zeta in E, IC. rewrite E in HV. clear E.
  set (inc := filter (fun j => negb (lmem (track_of td bs j) block_exclusion_list)) l) in *.
  set (grp := fun b => filter (fun j => eqb (track_of td bs j) b) inc) in *.
  assert (VS : vs = [] :: map grp cb) by congruence. rewrite VS. clear HV VS vs.
  assert (GR : filter (fun el => negb (Nat.eqb (List.length el) 0)) ([] :: map grp cb) = map grp cb).
  { simpl. apply filter_all. intros g Hg. apply in_map_iff in Hg as (b & <- & Hb). apply IC in Hb.
    apply in_map_iff in Hb as (j & Ej & Hj).
    assert (X : In j (grp b)) by (apply filter_In; split; auto; apply eqb_true; exact Ej).
    destruct (grp b); [destruct X|reflexivity]. }
  rewrite GR. clear GR.
  assert (INC : forall t, In t inc <-> exists tt, runs td t tt /\ passes tt s /\
         ~ exists x, In x depot_tracks /\ only_track st s tt x).
  { intros t. unfold inc. rewrite filter_In, HT. split.
    - intros [(tt & A & B & _) C]. exists tt. split; auto. split; auto. intros X.
      apply (track_excluded td st s bs t tt) in X; auto. rewrite X in C. discriminate.
    - intros (tt & A & B & C). split; [exists tt; repeat split; auto; discriminate|].
      destruct (lmem (track_of td bs t) block_exclusion_list) eqn:X; auto.
      apply (track_excluded td st s bs t tt) in X; auto; contradiction. }
  assert (CC : forall t, In t (List.concat (map grp cb)) <-> In t inc).
  { intros t. rewrite in_concat. split.
    - intros (g & Hg & Ht). apply in_map_iff in Hg as (b & <- & _). apply filter_In in Ht. tauto.
    - intros Ht. exists (grp (track_of td bs t)). split.
      + apply in_map. apply IC. apply in_map. exact Ht.
      + apply filter_In. split; auto. apply eqb_refl. }
  split; [apply asked_in; exact IN|]. split.
  { unfold no_track_groups. apply negb_true_iff in NE. apply lmem_false in NE. exact NE. }
  split; [|split; [|split]].
  - intros g Hg. apply in_map_iff in Hg as (b & <- & Hb). split.
    + apply IC in Hb. apply in_map_iff in Hb as (j & Ej & Hj).
      assert (X : In j (grp b)) by (apply filter_In; split; auto; apply eqb_true; exact Ej).
      intros Z. rewrite Z in X. destruct X.
    + unfold grp, inc. rewrite KL. rewrite !filter_filter. eauto.
  - apply NoDup_groups; auto. unfold inc. rewrite KL. apply NoDup_filter. apply NoDup_filter. exact ND.
  - intros t. rewrite CC. apply INC.
  - intros g t t' tt tt' Hg Ht Ht' R R'. apply CC in Ht'.
    apply in_map_iff in Hg as (b & <- & Hb). apply filter_In in Ht as [Ht Eb]. apply eqb_eq in Eb.
    rewrite <- (track_same td st s bs t t' tt tt' SA HS R R'). unfold grp. rewrite filter_In, eqb_true.
    split; [intros [_ X]; congruence|]. intros X. split; auto. congruence.
Qed.
Print Assumptions C39_groups.

(** Every station asked for that has track groups gets an entry. *)
Theorem C39_entries : forall td st imp,
  NoDup (dkeys td) -> stations_apart st -> all_annotated st td ->
  (forall s, asked st imp s -> In s (dkeys st)) ->
  exists d, jtrack td st imp = Ok d /\
    forall s, In s (dkeys d) <-> asked st imp s /\ ~ In s no_track_groups.
Proof.
  intros td st imp ND SA AN HA.
  set (F := fun s => do trains <- dlookup s (get_trains_at_station td st false); jtrack_subroutine td s st trains).
  assert (TOT : forall s, In s (imp_stations_list st imp) -> exists v, F s = Ok v).
  { intros s Hs. apply asked_in in Hs. apply HA in Hs. unfold F, dlookup.
    destruct (dget s (get_trains_at_station td st false)) as [l|] eqn:D.
    - cbn [bind]. destruct (trains_at_in td st false s l ND SA AN D) as ((bs & HS) & _ & HT).
      destruct (subroutine_ok td st s bs l (proj1 SA) HS) as (cb & E & _).
      { intros j Hj. apply HT in Hj as (tt & A & B & _). eauto. }
      rewrite E. eauto.
    - exfalso. apply dget_none in D. apply D.
      destruct (C52_trains_at_station td st false ND SA AN) as [-> _]. exact Hs. }
  destruct (fold_table_ok (fun s => negb (lmem s station_exclusion_list)) F (imp_stations_list st imp) [])
    as (a & E); [intros; apply TOT; auto|].
  assert (J : jtrack td st imp = Ok (jtrack_dict_generation a)).
  { unfold jtrack. match goal with |- (do d <- ?x; _) = _ => assert (X : x = Ok a) end.
    { rewrite <- E. apply foldM_ext. intros acc x _. destruct (negb (lmem x station_exclusion_list)); auto.
      unfold F. destruct (dlookup x (get_trains_at_station td st false)); auto. }
    rewrite X. reflexivity. }
  exists (jtrack_dict_generation a). split; auto. intros s.
  assert (K : dkeys (jtrack_dict_generation a) = dkeys a).
  { unfold jtrack_dict_generation, dkeys. rewrite map_map. reflexivity. }
  rewrite K.
  assert (M : In s (dkeys a) <-> exists v, dget s a = Some v).
  { split.
    - intros X. destruct (dget s a) as [v|] eqn:D; eauto. apply dget_none in D. contradiction.
    - intros (v & X). apply dget_in in X. apply in_map_iff. eexists; split; [|exact X]. reflexivity. }
  rewrite M. split.
  - intros (v & X). apply (fold_table _ _ _ _ _ E) in X as [(A & B & _)|[_ X]]; [|discriminate].
    split; [apply asked_in; exact A|]. apply negb_true_iff in B. apply lmem_false in B. exact B.
  - intros [A B]. apply asked_in in A. destruct (TOT s A) as (v & V). exists v.
    apply (fold_table _ _ _ _ _ E). left. split; auto. split; auto. apply negb_true_iff. apply lmem_false. exact B.
Qed.
Print Assumptions C39_entries.

(** ** C40: opposing trains *)

Section Single.
Variables (td : train_dict) (st : station_blocks) (imp : option (list string)).
Hypothesis ND : NoDup (dkeys td).
Hypothesis SA : stations_apart st.
Hypothesis AN : all_annotated st td.
Hypothesis VO : all_visit_once td.

Let pairs := dict (string * string) (list (Z * Z)).

Definition entry_of (d : pairs) (s s' : string) (j j' : Z) : Prop :=
  exists l, dget (s, s') d = Some l /\ In (j, j') l.

(** What is written under (s, s') *)
Definition fits (s s' : string) (j j' : Z) : Prop :=
  j <> j' /\ asked st imp s /\ asked st imp s' /\
  exists tt tt', runs td j tt /\ runs td j' tt' /\ opposing tt tt' s s' /\ ~ ends_at tt' s.

Inductive grows (s : string) (d0 : pairs) : pairs -> Prop :=
| grows_same : grows s d0 d0
| grows_more d s' j j' : grows s d0 d -> fits s s' j j' -> ~ In (s', s) (dkeys d) ->
    grows s d0 (dappend (s, s') (j, j') d).

Lemma dget_dappend (d : pairs) k v k' :
  dget k' (dappend k v d) =
    if eq_dec k' k then Some (match dget k d with Some l => l ++ [v] | None => [v] end) else dget k' d.
Proof. unfold dappend. destruct (dget k d); rewrite dget_dset; destruct (eq_dec k' k); auto. Qed.

Lemma entry_append (d : pairs) s s' j j' a a' i i' :
  entry_of (dappend (s, s') (j, j') d) a a' i i' <->
  entry_of d a a' i i' \/ (a = s /\ a' = s' /\ i = j /\ i' = j').
Proof.
  unfold entry_of. rewrite dget_dappend. destruct (eq_dec (a, a') (s, s')) as [E|N].
  - inversion E; subst. split.
    + intros (l & A & B). inversion A; subst. destruct (dget (s, s') d) as [l|].
      * apply in_app_iff in B as [B|[B|[]]]; [left; eauto|]. inversion B; subst. auto.
      * destruct B as [B|[]]. inversion B; subst. auto.
    + intros [(l & A & B)|(_ & _ & -> & ->)].
      * rewrite A. eexists. split; [reflexivity|]. apply in_app_iff. auto.
      * eexists. split; [reflexivity|]. destruct (dget (s, s') d); [apply in_app_iff; right|]; left; reflexivity.
  - split.
    + intros X. left. exact X.
    + intros [X|(-> & -> & _)]; [exact X|congruence].
Qed.

Lemma keys_append (d : pairs) k v k' : In k' (dkeys (dappend k v d)) <-> k' = k \/ In k' (dkeys d).
Proof.
  rewrite <- !dmem_true. unfold dmem. rewrite dget_dappend. destruct (eq_dec k' k) as [->|N].
  - split; auto.
  - split; [auto|]. intros [X|X]; [congruence|exact X].
Qed.

Lemma grows_trans s d0 d1 d2 : grows s d0 d1 -> grows s d1 d2 -> grows s d0 d2.
Proof. intros A B. induction B; [exact A|]. constructor; auto. Qed.

Lemma grows_entry s d0 d a a' i i' : grows s d0 d ->
  entry_of d a a' i i' -> entry_of d0 a a' i i' \/ (a = s /\ fits s a' i i').
Proof.
  induction 1 as [|d s' j j' G IH F K]; [auto|]. intros X. apply entry_append in X as [X|(-> & -> & -> & ->)]; auto.
Qed.

Lemma grows_mono s d0 d a a' i i' : grows s d0 d -> entry_of d0 a a' i i' -> entry_of d a a' i i'.
Proof. induction 1 as [|d s' j j' G IH F K]; [auto|]. intros X. apply entry_append. auto. Qed.

Lemma grows_keys s d0 d k : grows s d0 d -> In k (dkeys d) -> In k (dkeys d0) \/ (fst k = s /\ fst k <> snd k).
Proof.
  induction 1 as [|d s' j j' G IH F K]; [auto|]. intros X. apply keys_append in X as [->|X]; auto.
  right. split; auto. destruct F as (_ & _ & _ & tt & tt' & R & _ & (line & _ & L & _) & _).
  cbn [fst snd]. eapply leaves_neq; eauto.
Qed.

Lemma grows_apart s d0 d : grows s d0 d ->
  (forall a b, In (a, b) (dkeys d0) -> ~ In (b, a) (dkeys d0)) ->
  forall a b, In (a, b) (dkeys d) -> ~ In (b, a) (dkeys d).
Proof.
  induction 1 as [|d s' j j' G IH F K]; [auto|]. intros H0 a b X Y.
  apply keys_append in X as [X|X]; apply keys_append in Y as [Y|Y].
  - destruct F as (_ & _ & _ & tt & tt' & R & _ & (line & _ & L & _) & _).
    apply (leaves_neq tt s s' line); [eapply VO; eauto|exact L|congruence].
  - inversion X; subst. contradiction.
  - inversion Y; subst. contradiction.
  - apply (IH H0 a b X Y).
Qed.

Lemma grows_key_mono s d0 d k : grows s d0 d -> In k (dkeys d0) -> In k (dkeys d).
Proof. induction 1 as [|d s' j j' G IH F K]; [auto|]. intros X. apply keys_append. auto. Qed.

Lemma grows_filled s d0 d : grows s d0 d ->
  (forall a b, In (a, b) (dkeys d0) -> exists i i', entry_of d0 a b i i') ->
  forall a b, In (a, b) (dkeys d) -> exists i i', entry_of d a b i i'.
Proof.
  induction 1 as [|d s' j j' G IH F K]; [auto|]. intros H0 a b X. apply keys_append in X as [X|X].
  - inversion X; subst. exists j, j'. apply entry_append. auto.
  - destruct (IH H0 a b X) as (i & i' & E). exists i, i'. apply entry_append. auto.
Qed.

Lemma opposing_sym tt tt' s s' : opposing tt tt' s s' -> opposing tt' tt s' s.
Proof.
  intros (m & M1 & M2 & M3). exists (rev m). split; [|split; auto].
  - intros X. apply M1. rewrite <- (rev_involutive m), X. reflexivity.
  - rewrite rev_involutive. exact M2.
Qed.

(** The innermost step *)
Definition opp_step (s : string) (j : Z) (s' : string) (d : pairs) (j' : Z) : res pairs :=
  if eqb j' j then Ok d
  else
    do tj' <- train_time_table td j';
    do back <- next_station tj' s';
    if eqb back (Some s) && negb (dmem (s', s) d)
    then josingle_dict_generate td j j' s s' d
    else Ok d.

Lemma opp_step_ok s j s' d j' tt tt' l :
  runs td j tt -> leaves tt s s' l -> runs td j' tt' -> j' <> j ->
  asked st imp s -> asked st imp s' -> ~ ends_at tt' s ->
  exists d', opp_step s j s' d j' = Ok d' /\ grows s d d' /\
    (opposing tt tt' s s' -> ~ In (s', s) (dkeys d) -> entry_of d' s s' j j').
Proof.
  intros R L R' NE HA HA' HE. unfold opp_step. assert (E1 : eqb j' j = false) by (apply eqb_false; exact NE). rewrite E1.
  assert (T := R). apply time_table_ok in T. assert (T' := R'). apply time_table_ok in T'. rewrite T'. cbn [bind].
  destruct (next_station_total tt' s') as (back & NB). rewrite NB. cbn [bind].
  destruct (eqb back (Some s)) eqn:EB; cbn [andb].
  - apply eqb_eq in EB. subst back. apply next_leaves in NB as (l' & L'); [|eapply VO; eauto].
    destruct (dmem (s', s) d) eqn:DM; cbn [negb].
    + exists d. split; auto. split; [constructor|]. intros _ X. apply dmem_true in DM. contradiction.
    + apply dmem_false in DM. unfold josingle_dict_generate. rewrite T, T'. cbn [bind].
      rewrite (leaves_blocks tt s s' l) by (auto; eapply VO; eauto). cbn [bind].
      rewrite (leaves_blocks tt' s' s l') by (auto; eapply VO; eauto). cbn [bind].
      destruct (negb (Nat.eqb (List.length l) 0) && eqb l (rev l')) eqn:C.
      * apply andb_true_iff in C as [C1 C2]. apply eqb_eq in C2.
        eexists. split; [reflexivity|]. split.
        -- constructor; [constructor| |exact DM]. split; [congruence|]. split; auto. split; auto.
           exists tt, tt'. split; auto. split; auto. split; [|exact HE]. exists l. split; [intros ->; discriminate|].
           split; auto. rewrite C2, rev_involutive. exact L'.
        -- intros _ _. apply entry_append. auto.
      * exists d. split; auto. split; [constructor|]. intros (m & M1 & M2 & M3) _. exfalso.
        assert (m = l) by (apply (leaves_fun tt s s'); auto; eapply VO; eauto). subst m.
        assert (rev l = l') by (apply (leaves_fun tt' s' s); auto; eapply VO; eauto). subst l'.
        rewrite rev_involutive, eqb_refl, andb_true_r in C. destruct l; [congruence|discriminate].
  - exists d. split; auto. split; [constructor|]. intros (m & _ & _ & M3) _. exfalso. apply eqb_neq in EB. apply EB.
    assert (X : next_station tt' s' = Ok (Some s)) by (apply next_leaves; [eapply VO; eauto|eauto]). congruence.
Qed.

(** One train of the outer loop *)
Definition opp_train (s : string) (trains : list Z) (d : pairs) (j : Z) : res pairs :=
  do tj <- train_time_table td j;
  do s' <- next_station tj s;
  match s' with
  | None => Ok d
  | Some s' =>
      if lmem s' (imp_stations_list st imp) then foldM (opp_step s j s') trains d else Ok d
  end.

Definition opp_trains (s : string) (d : pairs) : res pairs :=
  do trains <- dlookup s (get_trains_at_station td st true);
  foldM (opp_train s trains) trains d.

Lemma josingle_eq : josingle td st imp = foldM (fun d s => opp_trains s d) (imp_stations_list st imp) [].
Proof. reflexivity. Qed.

Section AtStation.
Variables (s : string) (trains : list Z).
Hypothesis HA : asked st imp s.
Hypothesis HT : forall t, In t trains <->
  exists tt, runs td t tt /\ passes tt s /\ ~ ends_at tt s.

Lemma inner_ok j s' tt l sub d : incl sub trains -> runs td j tt -> leaves tt s s' l -> asked st imp s' ->
  exists d', foldM (opp_step s j s') sub d = Ok d' /\ grows s d d' /\
    forall j' tt', In j' sub -> j' <> j -> runs td j' tt' -> opposing tt tt' s s' ->
      ~ In (s', s) (dkeys d) -> entry_of d' s s' j j'.
Proof.
  revert d; induction sub as [|x sub IH]; intros d I R L HA'; simpl.
  - exists d. split; auto. split; [constructor|]. intros j' tt' [].
  - assert (I' : incl sub trains) by (intros y Hy; apply I; right; exact Hy).
    destruct (proj1 (HT x) (I x (or_introl eq_refl))) as (tx & Rx & Px & Ex).
    assert (ST : exists d1, opp_step s j s' d x = Ok d1 /\ grows s d d1 /\
       (x <> j -> opposing tt tx s s' -> ~ In (s', s) (dkeys d) -> entry_of d1 s s' j x)).
    { destruct (Z.eq_dec x j) as [->|N].
      - exists d. unfold opp_step. rewrite eqb_refl. split; auto. split; [constructor|]. congruence.
      - destruct (opp_step_ok s j s' d x tt tx l) as (d1 & E & G & K); auto. exists d1. auto. }
    destruct ST as (d1 & E & G & K). rewrite E. cbn [bind].
    destruct (IH d1 I' R L HA') as (d2 & E2 & G2 & K2). exists d2. split; auto.
    split; [eapply grows_trans; eauto|]. intros j' tt' [<-|Hj] N R' O NK.
    + apply (grows_mono s d1 d2); auto. apply K; auto. rewrite (runs_fun _ _ _ _ Rx R'). exact O.
    + apply (K2 j' tt'); auto. intros X. apply (grows_keys s d d1) in X as [X|[X Y]]; auto.
Qed.

Lemma outer_ok sub d : incl sub trains ->
  exists d', foldM (opp_train s trains) sub d = Ok d' /\ grows s d d' /\
    forall j j' tt tt' s', In j sub -> In j' trains -> j' <> j -> runs td j tt -> runs td j' tt' ->
      asked st imp s' -> opposing tt tt' s s' -> ~ In (s', s) (dkeys d) -> entry_of d' s s' j j'.
Proof.
  revert d; induction sub as [|x sub IH]; intros d I; simpl.
  - exists d. split; auto. split; [constructor|]. intros j j' tt tt' s' [].
  - assert (I' : incl sub trains) by (intros y Hy; apply I; right; exact Hy).
    destruct (proj1 (HT x) (I x (or_introl eq_refl))) as (tx & Rx & Px & Ex).
    assert (ST : exists d1, opp_train s trains d x = Ok d1 /\ grows s d d1 /\
       forall j' tt' s', In j' trains -> j' <> x -> runs td j' tt' -> asked st imp s' ->
         opposing tx tt' s s' -> ~ In (s', s) (dkeys d) -> entry_of d1 s s' x j').
    { unfold opp_train. assert (T := Rx). apply time_table_ok in T. rewrite T. cbn [bind].
      destruct (next_station_total tx s) as (o & NO). rewrite NO. cbn [bind]. destruct o as [s1|].
      - assert (NL := NO). apply next_leaves in NL as (l & L); [|eapply VO; eauto].
        destruct (lmem s1 (imp_stations_list st imp)) eqn:M.
        + apply lmem_true in M. apply asked_in in M.
          destruct (inner_ok x s1 tx l trains d (incl_refl _) Rx L M) as (d1 & E & G & K).
          exists d1. split; auto. split; auto. intros j' tt' s' Hj N R' HA' O NK.
          assert (s' = s1).
          { destruct O as (m & _ & L1 & _).
            assert (X : next_station tx s = Ok (Some s')) by (apply next_leaves; [eapply VO; eauto|eauto]). congruence. }
          subst s1. eapply K; eauto.
        + exists d. split; auto. split; [constructor|]. intros j' tt' s' Hj N R' HA' (m & _ & L1 & _) _.
          assert (X : next_station tx s = Ok (Some s')) by (apply next_leaves; [eapply VO; eauto|eauto]).
          rewrite NO in X. inversion X; subst s1. apply asked_in in HA'. apply lmem_false in M. contradiction.
      - exists d. split; auto. split; [constructor|]. intros j' tt' s' Hj N R' HA' (m & _ & L1 & _) _.
        assert (X : next_station tx s = Ok (Some s')) by (apply next_leaves; [eapply VO; eauto|eauto]). congruence. }
    destruct ST as (d1 & E & G & K). rewrite E. cbn [bind].
    destruct (IH d1 I') as (d2 & E2 & G2 & K2). exists d2. split; auto. split; [eapply grows_trans; eauto|].
    intros j j' tt tt' s' [<-|Hj] Hj' N R R' HA' O NK.
    + apply (grows_mono s d1 d2); auto. eapply K; eauto. rewrite (runs_fun _ _ _ _ Rx R). exact O.
    + eapply K2; eauto. intros X. apply (grows_keys s d d1) in X as [X|[X Y]]; auto.
Qed.
End AtStation.

Lemma no_end_if_leaves tt s s' l : visits_once tt -> leaves tt s s' l -> ~ ends_at tt s.
Proof.
  intros V (pre & r1 & mid & r2 & post & E & E1 & _) (f & r & E' & Er). rewrite E in E'.
  destruct (exists_last (l := r2 :: post)) as (w & z & W); [discriminate|].
  assert (X : f ++ [r] = (pre ++ r1 :: mid ++ w) ++ [z]).
  { rewrite <- E', W. assoc. }
  apply app_inj_tail in X as [_ <-]. apply (V pre r1 (mid ++ w) r [] s); auto. rewrite E, W. assoc.
Qed.

Lemma josingle_all : (forall s, asked st imp s -> In s (dkeys st)) ->
  exists d, josingle td st imp = Ok d /\
    (forall s s' j j', entry_of d s s' j j' -> fits s s' j j') /\
    (forall a b, In (a, b) (dkeys d) -> ~ In (b, a) (dkeys d)) /\
    (forall s s' j j' tt tt', j <> j' -> asked st imp s -> asked st imp s' ->
       runs td j tt -> runs td j' tt' -> opposing tt tt' s s' -> ~ ends_at tt s' -> ~ ends_at tt' s ->
       entry_of d s s' j j' \/ entry_of d s' s j' j) /\
    (forall a b, In (a, b) (dkeys d) -> exists i i', entry_of d a b i i') /\
    (forall s s' j j' tt tt', j <> j' -> asked st imp s -> asked st imp s' ->
       runs td j tt -> runs td j' tt' -> opposing tt tt' s s' -> ~ ends_at tt' s ->
       ~ In (s', s) (dkeys d) -> entry_of d s s' j j') /\
    (forall s s' j j' tt tt' u v, j <> j' -> asked st imp s' ->
       runs td j tt -> runs td j' tt' -> opposing tt tt' s s' -> ~ ends_at tt' s ->
       imp_stations_list st imp = u ++ s :: v -> ~ In s' u -> entry_of d s s' j j').
Proof.
  intros HK. rewrite josingle_eq.
  set (P := fun (pre : list string) (d : pairs) =>
    (forall s s' j j', entry_of d s s' j j' -> fits s s' j j') /\
    (forall k, In k (dkeys d) -> In (fst k) pre) /\
    (forall a b, In (a, b) (dkeys d) -> ~ In (b, a) (dkeys d)) /\
    (forall s s' j j' tt tt', j <> j' -> asked st imp s -> asked st imp s' ->
       runs td j tt -> runs td j' tt' -> opposing tt tt' s s' -> ~ ends_at tt s' -> ~ ends_at tt' s ->
       In s pre \/ In s' pre -> entry_of d s s' j j' \/ entry_of d s' s j' j) /\
    (forall a b, In (a, b) (dkeys d) -> exists i i', entry_of d a b i i') /\
    (forall s s' j j' tt tt', j <> j' -> asked st imp s' ->
       runs td j tt -> runs td j' tt' -> opposing tt tt' s s' -> ~ ends_at tt' s ->
       In s pre -> ~ In (s', s) (dkeys d) -> entry_of d s s' j j') /\
    (forall s s' j j' tt tt' u v, j <> j' -> asked st imp s' ->
       runs td j tt -> runs td j' tt' -> opposing tt tt' s s' -> ~ ends_at tt' s ->
       pre = u ++ s :: v -> ~ In s' u -> entry_of d s s' j j')).
  destruct (foldM_prefix P (fun d s => opp_trains s d) (imp_stations_list st imp) []) as (d & E & H).
  - split; [|split; [|split; [|split; [|split; [|split]]]]].
    + intros s s' j j' (l & X & _). discriminate.
    + intros k [].
    + intros a b [].
    + intros s s' j j' tt tt' _ _ _ _ _ _ _ _ [[]|[]].
    + intros a b [].
    + intros s s' j j' tt tt' _ _ _ _ _ _ [].
    + intros s s' j j' tt tt' u v _ _ _ _ _ _ E. destruct u; discriminate.
  - intros pre s post d EQ (P1 & P2 & P3 & P4 & P5 & P6 & P7).
    assert (HA : asked st imp s) by (apply asked_in; rewrite EQ; apply in_app_iff; right; left; reflexivity).
    unfold opp_trains, dlookup. destruct (dget s (get_trains_at_station td st true)) as [trains|] eqn:D.
    2:{ exfalso. apply dget_none in D. apply D.
        destruct (C52_trains_at_station td st true ND SA AN) as [-> _]. apply HK. exact HA. }
    cbn [bind]. destruct (trains_at_in td st true s trains ND SA AN D) as (_ & _ & HT).
    assert (HT' : forall t, In t trains <-> exists tt, runs td t tt /\ passes tt s /\ ~ ends_at tt s).
    { intros t. rewrite HT. split; intros (tt & A & B & C); exists tt; auto. }
    destruct (outer_ok s trains HA HT' trains d (incl_refl _)) as (d' & E & G & K).
    assert (KS : forall j j' tt tt' s', j <> j' -> asked st imp s' -> runs td j tt -> runs td j' tt' ->
      opposing tt tt' s s' -> ~ ends_at tt' s -> ~ In (s', s) (dkeys d) -> entry_of d' s s' j j').
    { intros j j' tt tt' s' N HA' R R' O E2 NK.
      assert (LV : exists l, leaves tt s s' l) by (destruct O as (m & _ & L & _); eauto).
      assert (LV' : exists l, leaves tt' s' s l) by (destruct O as (m & _ & _ & L); eauto).
      destruct LV as (l & LV). destruct LV' as (l' & LV').
      apply (K j j' tt tt' s'); auto.
      - apply HT'. exists tt. split; auto. split; [|apply (no_end_if_leaves tt s s' l); [exact (VO j tt R)|exact LV]].
        destruct LV as (p & r1 & m & r2 & q & -> & A & B & _). exists r1. split; auto. rewrite in_app_iff. simpl. auto.
      - apply HT'. exists tt'. split; auto. split; [|exact E2].
        destruct LV' as (p & r1 & m & r2 & q & -> & A & B & _). exists r2. split; auto.
        rewrite in_app_iff. simpl. rewrite in_app_iff. simpl. auto. }
    exists d'. split; auto. split; [|split; [|split; [|split; [|split; [|split]]]]].
    + intros a a' i i' X. apply (grows_entry s d d') in X as [X|[-> X]]; auto.
    + intros k X. apply in_app_iff. apply (grows_keys s d d') in X as [X|[X _]]; auto.
      * right. left. auto.
    + apply (grows_apart s d d'); auto.
    + intros a a' j j' tt tt' N HAa HAa' R R' O E1 E2 DN.
      assert (LV : exists l, leaves tt a a' l) by (destruct O as (m & _ & L & _); eauto).
      assert (LV' : exists l, leaves tt' a' a l) by (destruct O as (m & _ & _ & L); eauto).
      destruct LV as (l & LV). destruct LV' as (l' & LV').
      assert (NEQ : a <> a') by (apply (leaves_neq tt a a' l); [exact (VO j tt R)|exact LV]).
      assert (PA : passes tt a /\ passes tt a').
      { destruct LV as (p & r1 & m & r2 & q & -> & A & B & _). split; [exists r1|exists r2]; split; auto;
        rewrite ?in_app_iff; simpl; rewrite ?in_app_iff; simpl; auto. }
      assert (PA' : passes tt' a' /\ passes tt' a).
      { destruct LV' as (p & r1 & m & r2 & q & -> & A & B & _). split; [exists r1|exists r2]; split; auto;
        rewrite ?in_app_iff; simpl; rewrite ?in_app_iff; simpl; auto. }
      destruct (in_dec string_dec a pre) as [I1|I1];
        [destruct (P4 a a' j j' tt tt') as [X|X]; auto; [left|right]; eapply grows_mono; eauto|].
      destruct (in_dec string_dec a' pre) as [I2|I2];
        [destruct (P4 a a' j j' tt tt') as [X|X]; auto; [left|right]; eapply grows_mono; eauto|].
      assert (DN' : a = s \/ a' = s).
      { destruct DN as [X|X]; apply in_app_iff in X as [X|[X|[]]]; try contradiction; auto. }
      destruct DN' as [->| ->].
      * left. apply (K j j' tt tt' a'); auto.
        -- apply HT'. exists tt. split; auto. split; [tauto|]. apply (no_end_if_leaves tt s a' l); [exact (VO j tt R)|exact LV].
        -- apply HT'. exists tt'. split; auto. split; tauto.
        -- intros X. apply P2 in X. contradiction.
      * right. apply (K j' j tt' tt a); auto.
        -- apply HT'. exists tt'. split; auto. split; [tauto|]. apply (no_end_if_leaves tt' s a l'); [exact (VO j' tt' R')|exact LV'].
        -- apply HT'. exists tt. split; auto. split; tauto.
        -- apply opposing_sym. exact O.
        -- intros X. apply P2 in X. contradiction.
    + apply (grows_filled s d d'); auto.
    + intros a a' j j' tt tt' N HAa' R R' O E2 I NK.
      assert (NK' : ~ In (a', a) (dkeys d)) by (intros X; apply NK; apply (grows_key_mono s d d'); auto).
      apply in_app_iff in I as [I|[<-|[]]].
      * apply (grows_mono s d d'); auto. apply (P6 a a' j j' tt tt'); auto.
      * apply (KS j j' tt tt' a'); auto.
    + intros a a' j j' tt tt' u v N HAa' R R' O E2 EU NU.
      destruct v as [|z v].
      * apply app_inj_tail in EU as [-> ->]. apply (KS j j' tt tt' a'); auto. intros X. apply P2 in X. contradiction.
      * destruct (exists_last (l := z :: v)) as (w & z' & W); [discriminate|]. rewrite W in EU.
        assert (X : pre ++ [s] = (u ++ a :: w) ++ [z']) by (rewrite EU, <- app_assoc; reflexivity).
        apply app_inj_tail in X as [X _]. apply (grows_mono s d d'); auto. apply (P7 a a' j j' tt tt' u w); auto.
  - exists d. split; auto. destruct H as (P1 & P2 & P3 & P4 & P5 & P6 & P7). split; auto. split; auto.
    split; [intros; apply P4 with tt tt'; auto; left; apply asked_in; assumption|]. split; [exact P5|]. split; [|exact P7].
    intros. apply P6 with tt tt'; auto. apply asked_in. assumption.
Qed.
End Single.

(** Only opposing pairs of different trains are listed, and never under both (s, s') and
    (s', s).  An opposing pair is listed if neither train ends at the station it runs to; for
    trains that end there see C40_ending_refuted. *)
Theorem C40_opposing_partial : forall td st imp,
  NoDup (dkeys td) -> stations_apart st -> all_annotated st td -> all_visit_once td ->
  (forall s, asked st imp s -> In s (dkeys st)) ->
  exists d, josingle td st imp = Ok d /\
    (forall s s' l j j', dget (s, s') d = Some l -> In (j, j') l ->
       j <> j' /\ asked st imp s /\ asked st imp s' /\
       exists tt tt', runs td j tt /\ runs td j' tt' /\ opposing tt tt' s s') /\
    (forall s s' l, dget (s, s') d = Some l -> dget (s', s) d = None) /\
    (forall s s' j j' tt tt', j <> j' -> asked st imp s -> asked st imp s' ->
       runs td j tt -> runs td j' tt' -> opposing tt tt' s s' ->
       ~ ends_at tt s' -> ~ ends_at tt' s ->
       (exists l, dget (s, s') d = Some l /\ In (j, j') l) \/
       (exists l, dget (s', s) d = Some l /\ In (j', j) l)).
Proof.
  intros td st imp ND SA AN VO HK. destruct (josingle_all td st imp ND SA AN VO HK) as (d & E & S & A & C & _).
  exists d. split; auto. split; [|split].
  - intros s s' l j j' D I. destruct (S s s' j j') as (N & A1 & A2 & tt & tt' & R & R' & O & _); [exists l; auto|].
    split; auto. split; auto. split; auto. exists tt, tt'. auto.
  - intros s s' l D. apply dget_none. apply A. apply dget_in in D. apply in_map_iff. eexists; split; [|exact D]. reflexivity.
  - exact C.
Qed.
Print Assumptions C40_opposing_partial.

Lemma ends_dec (tt : table) s : ends_at tt s \/ ~ ends_at tt s.
Proof.
  destruct tt as [|r0 tt]; [right; intros (f & r & E & _); destruct f; discriminate|].
  destruct (exists_last (l := r0 :: tt)) as (f & r & ->); [discriminate|].
  destruct (eq_dec (r_station r) (Some s)) as [X|X]; [left; exists f, r; auto|].
  right. intros (f' & r' & Y & Z). apply app_inj_tail in Y as [_ ->]. contradiction.
Qed.

(** Exactly which opposing pairs are listed, for [s] before [s'] in the list of stations: under
    (s, s') those whose second train goes on from [s]; under (s', s) those whose train from [s] goes
    on from [s'], if nothing is listed under (s, s'), that is, if all opposing trains end at [s]. *)
Theorem C40_exact : forall td st imp,
  NoDup (dkeys td) -> stations_apart st -> all_annotated st td -> all_visit_once td ->
  (forall s, asked st imp s -> In s (dkeys st)) ->
  exists d, josingle td st imp = Ok d /\
    forall s s' j j' tt tt', listed_first st imp s s' -> asked st imp s' ->
      j <> j' -> runs td j tt -> runs td j' tt' -> opposing tt tt' s s' ->
      ((exists l, dget (s, s') d = Some l /\ In (j, j') l) <-> ~ ends_at tt' s) /\
      ((exists l, dget (s', s) d = Some l /\ In (j', j) l) <->
         ~ ends_at tt s' /\
         forall i i' ti ti', i <> i' -> runs td i ti -> runs td i' ti' -> opposing ti ti' s s' -> ends_at ti' s).
Proof.
  intros td st imp ND SA AN VO HK.
  destruct (josingle_all td st imp ND SA AN VO HK) as (d & E & S & A & C & FL & OT & FI).
  exists d. split; [exact E|]. intros s s' j j' tt tt' (u & v & EU & NU) AS' N R R' O.
  change (imp_stations_list st imp = u ++ s :: v) in EU.
  assert (AS : asked st imp s) by (apply asked_in; rewrite EU; apply in_app_iff; right; left; reflexivity).
  assert (KEY : forall a b i i', entry_of d a b i i' -> In (a, b) (dkeys d)).
  { intros a b i i' (l & D & _). apply dget_in in D. apply in_map_iff. eexists; split; [|exact D]. reflexivity. }
  split.
  - split; [|intros X; exact (FI s s' j j' tt tt' u v N AS' R R' O X EU NU)].
    intros X. destruct (S s s' j j' X) as (_ & _ & _ & ta & tb & Ra & Rb & _ & X1). rewrite (runs_fun _ _ _ _ R' Rb). exact X1.
  - split.
    + intros X. destruct (S s' s j' j X) as (_ & _ & _ & ta & tb & Ra & Rb & _ & X1). split; [rewrite (runs_fun _ _ _ _ R Rb); exact X1|].
      intros i i' ti ti' Ni Ri Ri' Oi. destruct (ends_dec ti' s) as [X2|X2]; [exact X2|]. exfalso. apply (A s' s); [eapply KEY; exact X|]. eapply KEY.
      exact (FI s s' i i' ti ti' u v Ni AS' Ri Ri' Oi X2 EU NU).
    + intros [X1 X2]. apply (OT s' s j' j tt' tt); auto; [apply opposing_sym; exact O|].
      intros X. destruct (FL s s' X) as (i & i' & Y). destruct (S s s' i i' Y) as (Ni & _ & _ & ti & ti' & Ri & Ri' & Oi & Z).
      exact (Z (X2 i i' ti ti' Ni Ri Ri' Oi)).
Qed.
Print Assumptions C40_exact.

Lemma foldM_after {A B} (P : list A -> B -> Prop) (f : B -> A -> res B) l acc r :
  P [] acc -> (forall pre x post acc acc', l = pre ++ x :: post -> P pre acc -> f acc x = Ok acc' -> P (pre ++ [x]) acc') ->
  foldM f l acc = Ok r -> P l r.
Proof.
  intros H0 HS. assert (G : forall post pre acc, l = pre ++ post -> P pre acc -> foldM f post acc = Ok r -> P l r).
  { induction post as [|x post IH]; intros pre a E Hp F; simpl in F.
    - rewrite app_nil_r in E. inversion F; subst. exact Hp.
    - inv_bind F. apply (IH (pre ++ [x]) a0); [rewrite <- app_assoc; exact E|eapply HS; eauto|exact F]. }
  apply (G l [] acc eq_refl H0).
Qed.

(** If no station is asked for twice, no pair is listed twice. *)
Theorem C40_once : forall td st imp d,
  NoDup (dkeys td) -> stations_apart st -> all_annotated st td ->
  match imp with Some l => NoDup l | None => True end ->
  josingle td st imp = Ok d -> forall k l, dget k d = Some l -> NoDup l.
Proof.
  intros td st imp d ND SA AN NI H.
  assert (NS : NoDup (imp_stations_list st imp)) by (destruct imp; [exact NI|exact (proj1 SA)]).
  (* pairs under a key were written by an earlier station, or an earlier train at [s], or for [j] by an earlier train *)
  set (done := fun (P : list string) (s : string) (Q : list Z) (j : Z) (R : list Z) (a : string) (i i' : Z) =>
    In a P \/ (a = s /\ (In i Q \/ (i = j /\ In i' R)))).
  set (good := fun P s Q j R (d : dict (string * string) (list (Z * Z))) => forall a b l, dget (a, b) d = Some l ->
    NoDup l /\ forall i i', In (i, i') l -> done P s Q j R a i i').
  assert (G : forall P, incl [] P -> good P "" [] 0%Z [] [] ) by (intros P _ a b l X; discriminate).
  enough (F : good (imp_stations_list st imp) "" [] 0%Z [] d) by (intros [a b] l X; exact (proj1 (F a b l X))).
  rewrite josingle_eq in H. revert H.
  apply (foldM_after (fun P d => good P "" [] 0%Z [] d)); [apply G; intros x []|].
  intros P s post d0 d1 ES GD E. unfold opp_trains in E. inv_bind E. rename a into trains.
  assert (NP : ~ In s P) by (rewrite ES in NS; apply NoDup_remove_2 in NS; intros X; apply NS, in_app_iff; auto).
  assert (NT : NoDup trains).
  { unfold dlookup in E0. destruct (dget s (get_trains_at_station td st true)) eqn:D; inversion E0; subst.
    destruct (trains_at_in td st true s trains ND SA AN D) as (_ & (keep & ->) & _). apply NoDup_filter, ND. }
  assert (W : good P s [] 0%Z [] d0 -> good P s trains 0%Z [] d1).
  { intros W. revert E. apply (foldM_after (fun Q d => good P s Q 0%Z [] d)); [exact W|].
    intros Q j postQ e0 e1 EQ GE E. unfold opp_train in E. inv_bind E. inv_bind E.
    assert (NQ : ~ In j Q) by (rewrite EQ in NT; apply NoDup_remove_2 in NT; intros X; apply NT, in_app_iff; auto).
    assert (WK : forall R d, good P s Q j R d -> good P s (Q ++ [j]) 0%Z [] d).
    { intros R e GG a1 b l D. destruct (GG a1 b l D) as [N1 N2]. split; [exact N1|]. intros i i' I. destruct (N2 i i' I) as [X|[X [Y|[Y Z0]]]].
      - left. exact X.
      - right. split; [exact X|]. left. apply in_app_iff. auto.
      - right. split; [exact X|]. left. subst. apply in_app_iff. right. left. reflexivity. }
    assert (WE : good P s Q j [] e0).
    { intros a1 b l D. destruct (GE a1 b l D) as [N1 N2]. split; [exact N1|]. intros i i' I. destruct (N2 i i' I) as [X|[X [Y|[Y []]]]]; [left; exact X|right; auto]. }
    destruct a0 as [s'|]; [|inversion E; subst; apply (WK []); exact WE].
    destruct (lmem s' (imp_stations_list st imp)); [|inversion E; subst; apply (WK []); exact WE].
    apply (WK trains). revert E. apply (foldM_after (fun R d => good P s Q j R d)); [exact WE|].
    intros R j' postR f0 f1 ER GF E. unfold opp_step in E.
    assert (NR : ~ In j' R) by (rewrite ER in NT; apply NoDup_remove_2 in NT; intros X; apply NT, in_app_iff; auto).
    assert (WF : good P s Q j (R ++ [j']) f0).
    { intros a1 b l D. destruct (GF a1 b l D) as [N1 N2]. split; [exact N1|]. intros i i' I. destruct (N2 i i' I) as [X|[X [Y|[Y Z0]]]]; [left; exact X|right; auto|].
      right. split; [exact X|]. right. split; [exact Y|]. apply in_app_iff. auto. }
    destruct (eqb j' j); [inversion E; subst; exact WF|]. inv_bind E. inv_bind E.
    destruct (eqb a1 (Some s) && negb (dmem (s', s) f0)); [|inversion E; subst; exact WF].
    unfold josingle_dict_generate in E. inv_bind E. inv_bind E. inv_bind E. destruct a4 as [p1 q1]. inv_bind E. destruct a4 as [p2 q2].
    destruct (negb _ && eqb _ _); inversion E; subst; [|exact WF].
    intros a4 b l D. rewrite dget_dappend in D. destruct (eq_dec (a4, b) (s, s')) as [EK|]; [|exact (WF a4 b l D)].
    inversion EK; subst. inversion D; subst.
    assert (NW : ~ done P s Q j R s j j').
    { intros [X|[_ [X|[_ X]]]]; auto. }
    destruct (dget (s, s') f0) as [l0|] eqn:D0.
    - destruct (GF s s' l0 D0) as [N1 N2]. split; [apply nodup_snoc; [exact N1|intros X; exact (NW (N2 _ _ X))]|].
      intros i i' I. apply in_app_iff in I as [I|[I|[]]]; [exact (proj2 (WF s s' l0 D0) i i' I)|]. inversion I; subst.
      right. split; [reflexivity|]. right. split; [reflexivity|]. apply in_app_iff. right. left. reflexivity.
    - split; [repeat constructor; simpl; tauto|]. intros i i' [I|[]]. inversion I; subst.
      right. split; [reflexivity|]. right. split; [reflexivity|]. apply in_app_iff. right. left. reflexivity. }
  assert (W0 : good P s [] 0%Z [] d0).
  { intros a b l D. destruct (GD a b l D) as [N1 N2]. split; [exact N1|]. intros i i' I. destruct (N2 i i' I) as [X|[_ [[]|[_ []]]]]. left. exact X. }
  intros a b l D. destruct (W W0 a b l D) as [N1 N2]. split; [exact N1|]. intros i i' I. left. apply in_app_iff.
  destruct (N2 i i' I) as [X|[-> _]]; [auto|right; left; reflexivity].
Qed.
Print Assumptions C40_once.

(** Trains 11 and 12 run against each other between B and C; both end at the far station. *)
Lemma abc_once : all_visit_once abc_td.
Proof.
  intros t tt (i & H). apply visits_once_nodup. unfold abc_td in H. simpl in H.
  repeat match type of H with (if ?c then _ else _) = _ => destruct c; [inversion H; subst; clear H|] end;
    try discriminate; repeat constructor; simpl; intuition discriminate.
Qed.

Lemma abc_opposing : exists tt tt', runs abc_td 11 tt /\ runs abc_td 12 tt' /\ opposing tt tt' "B" "C".
Proof.
  eexists. eexists. split; [exists ["KS - Os"]; reflexivity|]. split; [exists ["IC - IC"]; reflexivity|].
  exists ["y"]. split; [discriminate|]. split.
  - exists [at_ "a1" (Some "A"); at_ "x" None], (at_ "b1" (Some "B")), [at_ "y" None], (at_ "c1" (Some "C")), [].
    repeat split; auto. intros r [<-|[]]; reflexivity.
  - exists [], (at_ "c1" (Some "C")), [at_ "y" None], (at_ "b1" (Some "B")), [].
    repeat split; auto. intros r [<-|[]]; reflexivity.
Qed.

Theorem C40_ending_refuted : exists td st,
  NoDup (dkeys td) /\ stations_apart st /\ all_annotated st td /\ all_visit_once td /\
  exists s s' j j' tt tt', In s (dkeys st) /\ In s' (dkeys st) /\ j <> j' /\
    runs td j tt /\ runs td j' tt' /\ opposing tt tt' s s' /\
    exists d, josingle td st None = Ok d /\
      forall k l, dget k d = Some l -> ~ In (j, j') l /\ ~ In (j', j) l.
Proof.
  exists abc_td, abc_st. split; [apply C52_case|]. split; [apply abc_apart|]. split; [apply abc_annotated|].
  split; [apply abc_once|]. destruct abc_opposing as (tt & tt' & R & R' & O).
  exists "B", "C", 11%Z, 12%Z, tt, tt'. split; [simpl; auto|]. split; [simpl; auto|]. split; [discriminate|].
  split; auto. split; auto. split; auto. exists [(("C", "B"), [(12%Z, 13%Z)])]. split; [vm_compute; reflexivity|].
  intros k l D. apply dget_in in D as [D|[]]. inversion D; subst. simpl. intuition discriminate.
Qed.
Print Assumptions C40_ending_refuted.

(** The same trains with a block after their last station *)
Definition on_td : train_dict :=
  [(11%Z, (["KS - Os"], [at_ "a1" (Some "A"); at_ "x" None; at_ "b1" (Some "B"); at_ "y" None; at_ "c1" (Some "C"); at_ "z" None]));
   (12%Z, (["IC - IC"], [at_ "c1" (Some "C"); at_ "y" None; at_ "b1" (Some "B"); at_ "x" None]));
   (13%Z, (["IC - IC"], [at_ "b2" (Some "B"); at_ "y" None; at_ "c1" (Some "C"); at_ "z" None]))].

Lemma on_once : all_visit_once on_td.
Proof.
  intros t tt (i & H). apply visits_once_nodup. unfold on_td in H. simpl in H.
  repeat match type of H with (if ?c then _ else _) = _ => destruct c; [inversion H; subst; clear H|] end;
    try discriminate; repeat constructor; simpl; intuition discriminate.
Qed.

Lemma abc_station b s : in_station abc_st b s <->
  ((b = "a1" \/ b = "a2") /\ s = "A") \/ ((b = "b1" \/ b = "b2") /\ s = "B") \/ (b = "c1" /\ s = "C").
Proof.
  split.
  - intros (l & [H1|[H1|[H1|[]]]] & H2); inversion H1; subst; simpl in H2; intuition.
  - intros [[[->| ->] ->]|[[[->| ->] ->]|[-> ->]]];
      [exists ["a1"; "a2"] | exists ["a1"; "a2"] | exists ["b1"; "b2"] | exists ["b1"; "b2"]
      | exists ["c1"]]; simpl; auto.
Qed.

Lemma on_annotated : all_annotated abc_st on_td.
Proof.
  intros t info tt H r s Hr. simpl in H. rewrite abc_station.
  repeat (destruct H as [H|H]; [inversion H; subst; clear H|]); try tauto;
  simpl in Hr; repeat (destruct Hr as [Hr|Hr]; [subst r; cbn; intuition (try congruence)|]); try tauto.
Qed.

Example C40_case :
  NoDup (dkeys on_td) /\ stations_apart abc_st /\ all_annotated abc_st on_td /\ all_visit_once on_td /\
  (forall s, asked abc_st None s -> In s (dkeys abc_st)) /\
  josingle on_td abc_st None = Ok [(("B", "C"), [(11%Z, 12%Z); (13%Z, 12%Z)])].
Proof.
  split; [repeat constructor; simpl; intuition discriminate|]. split; [apply abc_apart|].
  split; [apply on_annotated|]. split; [apply on_once|]. split; [auto|]. vm_compute. reflexivity.
Qed.

(** In [on_td] pair 11, 12 is listed under (B, C); in [abc_td] it is listed nowhere, since 12 ends at B
    and 11 ends at C (C40_ending_refuted). *)
Example C40_exact_case : listed_first abc_st None "B" "C" /\ asked abc_st None "C" /\
  exists d, josingle on_td abc_st None = Ok d /\ exists l, dget ("B", "C") d = Some l /\ In (11%Z, 12%Z) l.
Proof.
  assert (LF : listed_first abc_st None "B" "C").
  { exists ["A"], ["C"]. split; [reflexivity|]. intros [X|[]]; discriminate. }
  assert (AC : asked abc_st None "C") by (simpl; auto). split; [exact LF|]. split; [exact AC|].
  destruct C40_case as (H1 & H2 & H3 & H4 & H5 & _).
  destruct (C40_exact on_td abc_st None H1 H2 H3 H4 H5) as (d & E & X). exists d. split; [exact E|].
  eapply (X "B" "C" 11%Z 12%Z _ _ LF AC); [discriminate|exists ["KS - Os"]; reflexivity|exists ["IC - IC"]; reflexivity| |].
  - exists ["y"]. split; [discriminate|]. split.
    + exists [at_ "a1" (Some "A"); at_ "x" None], (at_ "b1" (Some "B")), [at_ "y" None], (at_ "c1" (Some "C")), [at_ "z" None].
      repeat split; auto. intros r [<-|[]]; reflexivity.
    + exists [], (at_ "c1" (Some "C")), [at_ "y" None], (at_ "b1" (Some "B")), [at_ "x" None].
      repeat split; auto. intros r [<-|[]]; reflexivity.
  - intros (f & r & Y & Z). change [at_ "c1" (Some "C"); at_ "y" None; at_ "b1" (Some "B"); at_ "x" None]
      with ([at_ "c1" (Some "C"); at_ "y" None; at_ "b1" (Some "B")] ++ [at_ "x" None]) in Y.
    apply app_inj_tail in Y as [_ <-]. discriminate.
Qed.

Lemma abc_blocks_once : blocks_once abc_st.
Proof.
  intros s bs [H|[H|[H|[]]]]; inversion H; subst; repeat constructor; simpl; intuition discriminate.
Qed.

Example C39_case :
  blocks_once abc_st /\
  jtrack on_td abc_st None =
    Ok [("A", [[11%Z]]); ("B", [[11%Z; 12%Z]; [13%Z]]); ("C", [[11%Z; 12%Z; 13%Z]])].
Proof. split; [apply abc_blocks_once|]. vm_compute. reflexivity. Qed.

(** ** C41: followers *)

Section Followers.
Variables (td : train_dict) (s : string).
Hypothesis VO : all_visit_once td.

(** [t] leaves [s] for [s2] over [line] *)
Definition takes (s2 : string) (t : Z) (line : list string) : Prop :=
  exists tt, runs td t tt /\ leaves tt s s2 line.

Lemma takes_fun s2 t l l' : takes s2 t l -> takes s2 t l' -> l = l'.
Proof.
  intros (a & R & L) (b & R' & L'). rewrite <- (runs_fun _ _ _ _ R R') in L'.
  apply (leaves_fun a s s2); auto. exact (VO t a R).
Qed.

(** The groups for one next station: what one train does to them *)
Lemma pass_ok s2 j tj line groups :
  runs td j tj -> leaves tj s s2 line ->
  (forall g, In g groups -> exists f r lf, g = f :: r /\ takes s2 f lf) ->
  exists groups', jd_pass td s s2 j tj groups = Ok groups' /\
    exists joins : list Z -> bool,
      (forall g f r lf, g = f :: r -> takes s2 f lf -> In g groups -> (joins g = true <-> incl line lf)) /\
      groups' = map (fun g => if joins g then g ++ [j] else g) groups ++
                (if existsb joins groups then [] else [[j]]).
Proof.
  intros R L H. unfold jd_pass.
  set (lof := fun f => match dget f td with
     | Some (_, rows) => match get_blocks_b2win_station4train rows s s2 with Ok (l, _) => l | Err _ => [] end
     | None => [] end).
  set (joins := fun g : list Z => match g with f :: _ => forallb (fun b => lmem b (lof f)) line | [] => false end).
  assert (LO : forall f lf, takes s2 f lf -> lof f = lf).
  { intros f lf (tf & (i & Rf) & Lf). unfold lof. rewrite Rf. rewrite (leaves_blocks tf s s2 lf); auto.
    apply (VO f). exists i. exact Rf. }
  assert (JS : forall f r lf, takes s2 f lf -> (joins (f :: r) = true <-> incl line lf)).
  { intros f r lf Hf. simpl. rewrite (LO f lf Hf), forallb_forall. split; intros X b Hb.
    - apply lmem_true. apply X. exact Hb.
    - apply lmem_true. apply X. exact Hb. }
  match goal with |- context [foldM ?f groups] => set (step := f) end.
  assert (ST : forall acc f r lf, takes s2 f lf -> step acc (f :: r) =
     if joins (f :: r) then Ok (fst acc ++ [(f :: r) ++ [j]], true) else Ok (fst acc ++ [f :: r], snd acc)).
  { intros acc f r lf Tf. pose proof Tf as (tf & Rf & Lf). unfold step. cbn [lnth nth_error bind].
    assert (TT := Rf). apply time_table_ok in TT. rewrite TT. cbn [bind].
    assert (VJ := VO j tj R). assert (VF := VO f tf Rf).
    unfold common_path. rewrite (leaves_blocks tj s s2 line VJ L), (leaves_blocks tf s s2 lf VF Lf).
    cbn [bind].
    assert (CP : exists c, (if eqb line lf then Ok line
       else Ok (flatten (check_common_specific_elements_lists line lf))) = Ok c /\ (eqb c line = joins (f :: r))).
    { destruct (eqb line lf) eqn:E.
      - exists line. split; auto. rewrite eqb_refl. symmetry. apply (JS f r lf Tf). apply eqb_eq in E. subst. apply incl_refl.
      - eexists. split; [reflexivity|]. destruct (joins (f :: r)) eqn:J.
        + apply (JS f r lf Tf) in J. apply eqb_true. apply common_all. exact J.
        + apply eqb_false. intros X. assert (Y : incl line lf) by (exact (proj1 (common_all line lf) X)).
          apply (JS f r lf Tf) in Y. congruence. }
    destruct CP as (c & EC & CJ).
    replace (if eqb line lf then Ok line else Ok (flatten (check_common_specific_elements_lists line lf)))
      with (Ok c) by (symmetry; exact EC). cbn [bind]. rewrite CJ. reflexivity. }
  assert (F : forall gs acc, (forall g, In g gs -> exists f r lf, g = f :: r /\ takes s2 f lf) ->
    foldM step gs acc =
    Ok (fst acc ++ map (fun g => if joins g then g ++ [j] else g) gs, snd acc || existsb joins gs)).
  { induction gs as [|g gs IH]; intros [out b] HG.
    - simpl. rewrite app_nil_r, orb_false_r. reflexivity.
    - destruct (HG g (or_introl eq_refl)) as (f & r & lf & -> & Tf).
      cbn [foldM]. rewrite (ST _ f r lf Tf).
      destruct (joins (f :: r)) eqn:J; cbn [bind]; rewrite IH by (intros; apply HG; right; auto);
        cbn [fst snd map existsb]; rewrite J, <- app_assoc; simpl.
      + rewrite orb_true_r. reflexivity.
      + reflexivity. }
  rewrite (F groups ([], false) H). cbn [bind fst snd]. simpl app. rewrite orb_false_l.
  exists (map (fun g => if joins g then g ++ [j] else g) groups ++ (if existsb joins groups then [] else [[j]])).
  split.
  - destruct (existsb joins groups); [rewrite app_nil_r|]; reflexivity.
  - exists joins. split; [|reflexivity]. intros g f r lf -> Tf _. apply JS. exact Tf.
Qed.

(** After one pass the train is in a group: the while loop of jd ends. *)
Lemma jd_once s2 j tj groups groups' : jd_pass td s s2 j tj groups = Ok groups' -> In j (flatten groups').
Proof.
  unfold jd_pass, flatten. intros H. inv_bind H.
  assert (P : snd a = true -> In j (List.concat (fst a))).
  { revert E. apply (foldM_inv (fun acc : list (list Z) * bool => snd acc = true -> In j (List.concat (fst acc)))).
    - discriminate.
    - intros [out b] g acc' _ HP HE. inv_bind HE. inv_bind HE. inv_bind HE. inv_bind HE. destruct a3 as [own o].
      destruct (eqb a2 own); inversion HE; subst; cbn [fst snd] in *; rewrite concat_app; intros X; apply in_app_iff.
      + right. simpl. rewrite app_nil_r. apply in_app_iff. right. left. reflexivity.
      + left. auto. }
  destruct (snd a) eqn:B; inversion H; subst; auto.
  rewrite concat_app. apply in_app_iff. right. left. reflexivity.
Qed.

Definition inner_step (inner : dict string (list (list Z))) (j : Z) : res (dict string (list (list Z))) :=
  do tj <- train_time_table td j;
  do s2 <- next_station tj s;
  match s2 with
  | None => Ok inner
  | Some s2 =>
      let groups := match dget s2 inner with Some g => g | None => [] end in
      do groups <- jd_add td s s2 j tj groups;
      Ok (dset s2 groups inner)
  end.

Definition groups_of (inner : dict string (list (list Z))) (s2 : string) : list (list Z) :=
  match dget s2 inner with Some g => g | None => [] end.

Definition grouped (pre : list Z) (inner : dict string (list (list Z))) : Prop :=
  (forall s2 t, In t (List.concat (groups_of inner s2)) <-> In t pre /\ exists line, takes s2 t line) /\
  (forall s2 g, In g (groups_of inner s2) -> NoDup g /\ exists f r, g = f :: r /\
     forall t line lf, In t g -> takes s2 t line -> takes s2 f lf -> incl line lf) /\
  (forall s2 u t v t' w line line', pre = u ++ t :: v ++ t' :: w ->
     takes s2 t line -> takes s2 t' line' -> incl line' line ->
     exists g, In g (groups_of inner s2) /\ In t g /\ In t' g) /\
  (forall s2, In s2 (dkeys inner) <-> groups_of inner s2 <> []) /\
  (forall s2 g, In g (groups_of inner s2) -> exists keep, g = filter keep pre) /\
  (forall s2, (forall t t' line line', takes s2 t line -> takes s2 t' line' -> incl line line' -> incl line' line) ->
     NoDup (List.concat (groups_of inner s2))).

Lemma keep_old (keep : Z -> bool) pre j : ~ In j pre -> exists keep', filter keep pre = filter keep' (pre ++ [j]).
Proof.
  intros N. exists (fun t => negb (Z.eqb t j) && keep t). rewrite filter_app. cbn. rewrite Z.eqb_refl. cbn. rewrite app_nil_r.
  apply filter_ext_in. intros t I. destruct (Z.eqb t j) eqn:E; [apply Z.eqb_eq in E; congruence|reflexivity].
Qed.

Lemma keep_new (keep : Z -> bool) pre j : ~ In j pre -> exists keep', filter keep pre ++ [j] = filter keep' (pre ++ [j]).
Proof.
  intros N. exists (fun t => Z.eqb t j || keep t). rewrite filter_app. cbn. rewrite Z.eqb_refl. cbn. f_equal.
  apply filter_ext_in. intros t I. destruct (Z.eqb t j) eqn:E; [apply Z.eqb_eq in E; congruence|reflexivity].
Qed.

Lemma join_one (joins : list Z -> bool) j gs : NoDup (List.concat gs) -> ~ In j (List.concat gs) ->
  (forall u g v g' w, gs = u ++ g :: v ++ g' :: w -> joins g = true -> joins g' = true -> False) ->
  NoDup (List.concat (map (fun g => if joins g then g ++ [j] else g) gs)).
Proof.
  induction gs as [|g gs IH]; intros N F O; [constructor|]. cbn [List.concat map] in *.
  assert (N1 : NoDup g) by (clear - N; induction g as [|x g IHg]; [constructor|]; cbn in N; inversion N; subst; constructor; [rewrite in_app_iff in H1; tauto|auto]).
  assert (N2 : NoDup (List.concat gs)) by (clear - N; induction g as [|x g IHg]; [exact N|]; cbn in N; inversion N; subst; auto).
  assert (D : forall x, In x g -> ~ In x (List.concat gs)).
  { clear - N. induction g as [|y g IHg]; intros x I; [destruct I|]. cbn in N. inversion N; subst. destruct I as [<-|I]; [rewrite in_app_iff in H1; tauto|auto]. }
  rewrite in_app_iff in F. destruct (joins g) eqn:J.
  - assert (E : map (fun g => if joins g then g ++ [j] else g) gs = gs).
    { rewrite <- (map_id gs) at 2. apply map_ext_in. intros g' I. destruct (joins g') eqn:J'; [|reflexivity]. exfalso.
      apply in_split in I as (v & w & ->). apply (O [] g v g' w); auto. }
    rewrite E. apply nodup_app; [apply nodup_snoc; tauto|exact N2|]. intros x I. apply in_app_iff in I as [I|[<-|[]]]; [auto|tauto].
  - apply nodup_app; [exact N1|apply IH; [exact N2|tauto|]|].
    + intros u g1 v g2 w -> A B. apply (O (g :: u) g1 v g2 w); auto.
    + intros x I X. apply in_concat in X as (y & Hy & X). apply in_map_iff in Hy as (g' & <- & Hg').
      assert (C : In x (List.concat gs) \/ x = j).
      { destruct (joins g'); [apply in_app_iff in X as [X|[X|[]]]; [left; apply in_concat; eauto|auto]|left; apply in_concat; eauto]. }
      destruct C as [C| ->]; [exact (D x I C)|tauto].
Qed.

Lemma groups_dset inner s2 g s2' :
  groups_of (dset s2 g inner) s2' = if eq_dec s2' s2 then g else groups_of inner s2'.
Proof. unfold groups_of. rewrite dget_dset. destruct (eq_dec s2' s2); reflexivity. Qed.

Lemma inner_ok41 l : NoDup l -> (forall j, In j l -> exists tt, runs td j tt) ->
  exists inner, foldM inner_step l [] = Ok inner /\ grouped l inner.
Proof.
  intros NDl HR. apply (foldM_prefix grouped inner_step l []).
  - split; [|split; [|split; [|split; [|split]]]].
    + intros s2 t. simpl. tauto.
    + intros s2 g [].
    + intros s2 u t v t' w line line' E. destruct u; discriminate.
    + intros s2. simpl. unfold groups_of. simpl. split; [tauto|]. congruence.
    + intros s2 g [].
    + intros s2 _. constructor.
  - intros pre j post inner EQ (G1 & G2 & G3 & G4 & G5 & G6).
    assert (NJ : ~ In j pre).
    { rewrite EQ in NDl. apply NoDup_remove_2 in NDl. intros X. apply NDl. apply in_app_iff. auto. }
    destruct (HR j) as (tj & R); [rewrite EQ; apply in_app_iff; right; left; reflexivity|].
    assert (VJ := VO j tj R). unfold inner_step. assert (T := R). apply time_table_ok in T. rewrite T. cbn [bind].
    destruct (next_station_total tj s) as (o & NO). rewrite NO. cbn [bind].
    assert (TK : forall s2 line, takes s2 j line -> o = Some s2).
    { intros s2 line (tt & R' & L). rewrite (runs_fun _ _ _ _ R' R) in L.
      assert (X : next_station tj s = Ok (Some s2)) by (apply next_leaves; eauto). congruence. }
    destruct o as [s2|].
    2:{ exists inner. split; auto. split; [|split; [exact G2|split; [|split; [exact G4|split; [|exact G6]]]]].
        - intros s2 t. rewrite G1, in_app_iff. simpl. split; [intros [A B]; auto|].
          intros [[A|[<-|[]]] B]; auto. destruct B as (line & B). apply TK in B. discriminate.
        - intros s2 u t v t' w line line' E A B I.
          destruct (exists_last (l := t' :: w)) as (w' & z & W); [discriminate|]. rewrite W in E.
          assert (E' : pre ++ [j] = (u ++ t :: v ++ w') ++ [z]) by (rewrite E; assoc).
          apply app_inj_tail in E' as [E1 <-]. destruct w' as [|t'' w'].
          + simpl in W. inversion W; subst. apply TK in B. discriminate.
          + simpl in W. inversion W; subst t''. apply (G3 s2 u t v t' w' line line'); auto.
        - intros s2 g Hg. destruct (G5 s2 g Hg) as (keep & ->). apply keep_old, NJ. }
    assert (LV := NO). apply next_leaves in LV as (lj & LV); auto.
    assert (TJ : takes s2 j lj) by (exists tj; auto).
    assert (NC : lmem j (flatten (groups_of inner s2)) = false).
    { apply lmem_false. unfold flatten. intros X. apply G1 in X as [X _]. contradiction. }
    unfold jd_add. fold (groups_of inner s2). rewrite NC.
    destruct (pass_ok s2 j tj lj (groups_of inner s2) R LV) as (gs & E & joins & JS & EG).
    { intros g Hg. destruct (G2 s2 g Hg) as (_ & f & r & -> & _).
      assert (X : In f (List.concat (groups_of inner s2))) by (apply in_concat; exists (f :: r); simpl; auto).
      apply G1 in X as [_ (lf & X)]. exists f, r, lf. auto. }
    rewrite E. cbn [bind]. exists (dset s2 gs inner). split; auto.
    assert (HEAD : forall f r, In (f :: r) (groups_of inner s2) -> exists lf, takes s2 f lf).
    { intros f r Hg. assert (X : In f (List.concat (groups_of inner s2))) by (apply in_concat; exists (f :: r); simpl; auto).
      apply G1 in X. tauto. }
    assert (INJ : In j (List.concat gs)).
    { apply jd_once in E. exact E. }
    assert (OLD : forall t, t <> j -> (In t (List.concat gs) <-> In t (List.concat (groups_of inner s2)))).
    { intros t N. rewrite EG, concat_app, in_app_iff. split.
      - intros [X|X].
        + apply in_concat in X as (g' & Hg' & X). apply in_map_iff in Hg' as (g & <- & Hg).
          apply in_concat. exists g. split; auto. destruct (joins g); auto. apply in_app_iff in X as [X|[X|[]]]; congruence || auto.
        + exfalso. destruct (existsb joins (groups_of inner s2)); [destruct X|]. destruct X as [X|[]]; congruence.
      - intros X. left. apply in_concat in X as (g & Hg & X). apply in_concat.
        exists (if joins g then g ++ [j] else g). split; [apply in_map_iff; exists g; auto|].
        destruct (joins g); auto. apply in_app_iff. auto. }
    split; [|split; [|split; [|split; [|split]]]].
    + intros s3 t. rewrite groups_dset. destruct (eq_dec s3 s2) as [->|N3].
      * destruct (Z.eq_dec t j) as [->|N].
        -- split; [|intros; exact INJ]. intros _. split; [apply in_app_iff; simpl; auto|eauto].
        -- rewrite OLD, G1, in_app_iff by exact N. simpl. split; [intros [A B]; auto|]. intros [[A|[A|[]]] B]; congruence || auto.
      * rewrite G1, in_app_iff. simpl. split; [intros [A B]; auto|]. intros [[A|[<-|[]]] B]; auto.
        destruct B as (line & B). apply TK in B. congruence.
    + intros s3 g'. rewrite groups_dset. destruct (eq_dec s3 s2) as [->|N3]; [|apply G2].
      rewrite EG, in_app_iff. intros [Hg'|Hg'].
      * apply in_map_iff in Hg' as (g & <- & Hg). destruct (G2 s2 g Hg) as (NG & f & r & Eg & I).
        destruct (joins g) eqn:J; [|split; auto; exists f, r; auto]. split.
        -- apply nodup_snoc; auto. intros X.
           assert (Y : In j (List.concat (groups_of inner s2))) by (apply in_concat; eauto).
           apply G1 in Y as [Y _]. contradiction.
        -- exists f, (r ++ [j]). split; [rewrite Eg; reflexivity|]. intros t line lf Ht A B.
           apply in_app_iff in Ht as [Ht|[<-|[]]]; [eapply I; eauto|].
           rewrite (takes_fun s2 j line lj A TJ). apply (JS g f r lf Eg B Hg). exact J.
      * destruct (existsb joins (groups_of inner s2)); [destruct Hg'|]. destruct Hg' as [<-|[]].
        split; [repeat constructor; simpl; tauto|]. exists j, []. split; auto.
        intros t line lf [<-|[]] A B. rewrite (takes_fun s2 j line lf A B). apply incl_refl.
    + intros s3 u t v t' w line line' E0 A B I. rewrite groups_dset.
      destruct (exists_last (l := t' :: w)) as (w' & z & W); [discriminate|]. rewrite W in E0.
      assert (E' : pre ++ [j] = (u ++ t :: v ++ w') ++ [z]) by (rewrite E0; assoc).
      apply app_inj_tail in E' as [E1 <-]. destruct w' as [|t'' w'].
      * simpl in W. inversion W; subst t' w. pose proof (TK _ _ B) as X. inversion X; subst s3. clear X.
        destruct (eq_dec s2 s2) as [_|X]; [|congruence].
        rewrite (takes_fun s2 j line' lj B TJ) in I.
        assert (Ht : In t (List.concat (groups_of inner s2))).
        { apply G1. split; [rewrite E1; apply in_app_iff; right; left; reflexivity|eauto]. }
        apply in_concat in Ht as (g & Hg & Ht). destruct (G2 s2 g Hg) as (_ & f & r & Eg & IG).
        assert (HF := Hg). rewrite Eg in HF. apply HEAD in HF as (lf & Tf).
        assert (J : joins g = true).
        { apply (JS g f r lf Eg Tf Hg). intros b Hb. apply (IG t line lf Ht A Tf). apply I. exact Hb. }
        exists (g ++ [j]). split; [|split; apply in_app_iff; simpl; auto].
        rewrite EG. apply in_app_iff. left. apply in_map_iff. exists g. rewrite J. auto.
      * simpl in W. inversion W; subst t''. destruct (G3 s3 u t v t' w' line line') as (g & Hg & Ht & Ht'); auto.
        destruct (eq_dec s3 s2) as [->|N3]; [|eauto].
        exists (if joins g then g ++ [j] else g). split.
        -- rewrite EG. apply in_app_iff. left. apply in_map_iff. exists g. auto.
        -- destruct (joins g); auto. rewrite !in_app_iff. auto.
    + intros s3. rewrite groups_dset. rewrite <- dmem_true. unfold dmem. rewrite dget_dset.
      destruct (eq_dec s3 s2) as [->|N3].
      * split; auto. intros _ X. rewrite X in INJ. destruct INJ.
      * rewrite <- G4, <- dmem_true. unfold dmem. tauto.
    + intros s3 g'. rewrite groups_dset. destruct (eq_dec s3 s2) as [->|N3].
      2:{ intros Hg. destruct (G5 s3 g' Hg) as (keep & ->). apply keep_old, NJ. }
      rewrite EG, in_app_iff. intros [Hg'|Hg'].
      * apply in_map_iff in Hg' as (g & <- & Hg). destruct (G5 s2 g Hg) as (keep & ->).
        destruct (joins (filter keep pre)); [apply keep_new|apply keep_old]; exact NJ.
      * destruct (existsb joins (groups_of inner s2)); [destruct Hg'|]. destruct Hg' as [<-|[]].
        destruct (keep_new (fun _ => false) pre j NJ) as (keep & K). exists keep. rewrite <- K.
        assert (Z0 : filter (fun _ : Z => false) pre = []) by (clear; induction pre; auto). rewrite Z0. reflexivity.
    + intros s3 EQL. rewrite groups_dset. destruct (eq_dec s3 s2) as [->|N3]; [|apply G6, EQL].
      specialize (G6 s2 EQL).
      assert (NJg : ~ In j (List.concat (groups_of inner s2))) by (intros X; apply G1 in X as [X _]; contradiction).
      rewrite EG, concat_app. destruct (existsb joins (groups_of inner s2)) eqn:EX.
      * cbn [List.concat]. rewrite app_nil_r. apply join_one; auto.
        intros u g v g' w SP J1 J2.
        assert (Hg : In g (groups_of inner s2)) by (rewrite SP; apply in_app_iff; right; left; reflexivity).
        assert (Hg' : In g' (groups_of inner s2)) by (rewrite SP; apply in_app_iff; right; right; apply in_app_iff; right; left; reflexivity).
        destruct (G2 s2 g Hg) as (_ & f & r & Eg & _). destruct (G2 s2 g' Hg') as (_ & f' & r' & Eg' & _).
        assert (HF := Hg). rewrite Eg in HF. apply HEAD in HF as (lf & Tf).
        assert (HF := Hg'). rewrite Eg' in HF. apply HEAD in HF as (lf' & Tf').
        assert (I1 : incl lj lf) by (apply (JS g f r lf Eg Tf Hg); exact J1).
        assert (I2 : incl lj lf') by (apply (JS g' f' r' lf' Eg' Tf' Hg'); exact J2).
        assert (I3 : incl lf lj) by (apply (EQL j f lj lf TJ Tf I1)).
        assert (I4 : incl lf' lj) by (apply (EQL j f' lj lf' TJ Tf' I2)).
        (* the heads are in a common group, but no train is in two *)
        assert (CM : f <> f' -> exists g0, In g0 (groups_of inner s2) /\ In f g0 /\ In f' g0).
        { intros NF.
          assert (P1 : In f pre) by (apply (G1 s2 f); apply in_concat; exists g; rewrite Eg; simpl; rewrite <- Eg; auto).
          assert (P2 : In f' pre) by (apply (G1 s2 f'); apply in_concat; exists g'; rewrite Eg'; simpl; rewrite <- Eg'; auto).
          apply in_split in P1 as (a & b & P1). rewrite P1 in P2. apply in_app_iff in P2 as [P2|[P2|P2]].
          - apply in_split in P2 as (c & e & ->).
            destruct (G3 s2 c f' e f b lf' lf) as (g0 & X & Y & Z0); auto; [rewrite P1; assoc|intros z Hz; apply I2, I3, Hz|eauto].
          - congruence.
          - apply in_split in P2 as (c & e & ->). destruct (G3 s2 a f c f' e lf lf') as (g0 & X & Y & Z0); auto; [intros z Hz; apply I1, I4, Hz|eauto]. }
        assert (UN : forall x ga gb, In ga (groups_of inner s2) -> In gb (groups_of inner s2) -> In x ga -> In x gb -> ga = gb).
        { intros x ga gb Ha Hb Xa Xb. apply in_split in Ha as (a & b & Ha). rewrite Ha in G6, Hb.
          rewrite concat_app in G6. cbn [List.concat] in G6.
          apply in_app_iff in Hb as [Hb|[Hb|Hb]]; [exfalso|exact Hb|exfalso].
          - assert (Y : In x (List.concat a)) by (apply in_concat; eauto). apply in_split in Y as (y1 & y2 & Y). rewrite Y in G6.
            rewrite <- app_assoc in G6. apply NoDup_remove_2 in G6. apply G6. apply in_app_iff. right. apply in_app_iff. right. apply in_app_iff. left. exact Xa.
          - assert (G7 : NoDup (ga ++ List.concat b)) by (clear - G6; induction (List.concat a) as [|? ? IH0]; [exact G6|]; apply IH0; cbn in G6; inversion G6; assumption).
            apply in_split in Xa as (y1 & y2 & Y). rewrite Y, <- app_assoc in G7. apply NoDup_remove_2 in G7. apply G7.
            apply in_app_iff. right. apply in_app_iff. right. apply in_concat. eauto. }
        assert (EE : g = g').
        { destruct (Z.eq_dec f f') as [->|NF].
          - apply (UN f'); auto; [rewrite Eg|rewrite Eg']; left; reflexivity.
          - destruct (CM NF) as (g0 & X & Y & Z0). transitivity g0.
            + apply (UN f); auto. rewrite Eg. left. reflexivity.
            + apply (UN f'); auto. rewrite Eg'. left. reflexivity. }
        rewrite <- EE in SP. rewrite SP, !concat_app in G6. cbn [List.concat] in G6. rewrite concat_app in G6. cbn [List.concat] in G6.
        assert (G7 : NoDup (g ++ List.concat v ++ g ++ List.concat w)) by (clear - G6; induction (List.concat u) as [|? ? IH0]; [exact G6|]; apply IH0; cbn in G6; inversion G6; assumption).
        rewrite Eg in G7. cbn in G7. inversion G7 as [|? ? X1 X2]. apply X1. rewrite !in_app_iff. right. right. left. reflexivity.
      * assert (E0 : map (fun g => if joins g then g ++ [j] else g) (groups_of inner s2) = groups_of inner s2).
        { rewrite <- (map_id (groups_of inner s2)) at 2. apply map_ext_in. intros g Hg. destruct (joins g) eqn:J; [|reflexivity].
          assert (X : existsb joins (groups_of inner s2) = true) by (apply existsb_exists; eauto). congruence. }
        rewrite E0. cbn. apply nodup_snoc; auto.
Qed.
End Followers.

Lemma jd_eq td st imp :
  jd td st imp =
  foldM (fun d s => if true then
      do v <- (do trains <- dlookup s (get_trains_at_station td st false); foldM (inner_step td s) trains []);
      Ok (dset s v d) else Ok d) (imp_stations_list st imp) [].
Proof.
  unfold jd. apply foldM_ext. intros d s _.
  destruct (dlookup s (get_trains_at_station td st false)); reflexivity.
Qed.

Lemma jd_all td st imp : NoDup (dkeys td) -> stations_apart st -> all_annotated st td -> all_visit_once td ->
  (forall s, asked st imp s -> In s (dkeys st)) ->
  exists d, jd td st imp = Ok d /\
    (forall s, asked st imp s -> exists inner, dget s d = Some inner) /\
    forall s inner, dget s d = Some inner -> asked st imp s /\
      exists l keep, l = filter keep (dkeys td) /\
        (forall t, In t l <-> exists tt, runs td t tt /\ passes tt s) /\ grouped td s l inner.
Proof.
  intros ND SA AN VO HK. rewrite jd_eq.
  set (F := fun s => do trains <- dlookup s (get_trains_at_station td st false); foldM (inner_step td s) trains []).
  assert (FF : forall s, asked st imp s -> exists inner, F s = Ok inner /\
      exists l keep, l = filter keep (dkeys td) /\
        (forall t, In t l <-> exists tt, runs td t tt /\ passes tt s) /\ grouped td s l inner).
  { intros s Hs. unfold F, dlookup. destruct (dget s (get_trains_at_station td st false)) as [l|] eqn:D.
    2:{ exfalso. apply dget_none in D. apply D.
        destruct (C52_trains_at_station td st false ND SA AN) as [-> _]. apply HK. exact Hs. }
    destruct (trains_at_in td st false s l ND SA AN D) as (_ & (keep & KL) & HT). cbn [bind].
    destruct (inner_ok41 td s VO l) as (inner & E & G).
    - rewrite KL. apply NoDup_filter. exact ND.
    - intros j Hj. apply HT in Hj as (tt & A & _). eauto.
    - exists inner. split; auto. exists l, keep. split; auto. split; auto.
      intros t. rewrite HT. split; intros (tt & A & B); exists tt; [tauto|]. split; auto. split; auto. discriminate. }
  destruct (fold_table_ok (fun _ => true) F (imp_stations_list st imp) []) as (d & E).
  { intros s Hs _. apply asked_in in Hs. destruct (FF s Hs) as (v & X & _). eauto. }
  exists d. split; [exact E|]. split.
  - intros s Hs. destruct (FF s Hs) as (v & X & _). exists v. apply (fold_table (fun _ => true) F _ _ _ E). left.
    split; [apply asked_in; exact Hs|auto].
  - intros s inner D. apply (fold_table (fun _ => true) F _ _ _ E) in D as [(A & _ & B)|[_ D]]; [|discriminate].
    apply asked_in in A. split; auto. destruct (FF s A) as (v & X & Y). rewrite X in B. inversion B; subst. exact Y.
Qed.

(** jd ends with a result.  The groups of (s, s2) hold exactly the trains that leave s for s2
    next; every train of a group runs over blocks of the group's first train.  That any two
    trains of a group have common blocks is refuted below. *)
Theorem C41_groups_partial : forall td st imp,
  NoDup (dkeys td) -> stations_apart st -> all_annotated st td -> all_visit_once td ->
  (forall s, asked st imp s -> In s (dkeys st)) ->
  exists d, jd td st imp = Ok d /\
    (forall s, asked st imp s -> exists inner, dget s d = Some inner) /\
    forall s inner, dget s d = Some inner -> asked st imp s /\
      (forall s2 t,
         (exists groups g, dget s2 inner = Some groups /\ In g groups /\ In t g) <->
         (exists tt line, runs td t tt /\ leaves tt s s2 line)) /\
      (forall s2 groups g, dget s2 inner = Some groups -> In g groups ->
         NoDup g /\ exists f r, g = f :: r /\
           forall t tt line tf lf, In t g -> runs td t tt -> leaves tt s s2 line ->
             runs td f tf -> leaves tf s s2 lf -> incl line lf).
Proof.
  intros td st imp ND SA AN VO HK. destruct (jd_all td st imp ND SA AN VO HK) as (d & E & K & H).
  exists d. split; auto. split; auto. intros s inner D. destruct (H s inner D) as (A & l & keep & KL & HT & G1 & G2 & G3 & G4 & G5 & G6).
  split; auto. split.
  - intros s2 t. split.
    + intros (groups & g & Dg & Hg & Ht).
      assert (X : In t (List.concat (groups_of inner s2))).
      { unfold groups_of. rewrite Dg. apply in_concat. eauto. }
      apply G1 in X as [_ (line & tt & R & L)]. eauto.
    + intros (tt & line & R & L).
      assert (X : In t (List.concat (groups_of inner s2))).
      { apply G1. split; [|exists line, tt; auto]. apply HT. exists tt. split; auto.
        destruct L as (p & r1 & m & r2 & q & -> & A1 & _). exists r1. split; auto. apply in_app_iff. simpl. auto. }
      unfold groups_of in X. destruct (dget s2 inner) as [groups|]; [|destruct X].
      apply in_concat in X as (g & Hg & Ht). eauto.
  - intros s2 groups g Dg Hg. destruct (G2 s2 g) as (NG & f & r & Eg & I); [unfold groups_of; rewrite Dg; exact Hg|].
    split; auto. exists f, r. split; auto. intros t tt line tf lf Ht R L Rf Lf.
    apply (I t line lf Ht); [exists tt|exists tf]; auto.
Qed.
Print Assumptions C41_groups_partial.

(** The groups list trains in the order of the train dictionary.  If no train's blocks between the
    two stations are only some of those of another train, then every train is in one group. *)
Theorem C41_order : forall td st imp d s inner s2 groups,
  NoDup (dkeys td) -> stations_apart st -> all_annotated st td -> all_visit_once td ->
  (forall s, asked st imp s -> In s (dkeys st)) ->
  jd td st imp = Ok d -> dget s d = Some inner -> dget s2 inner = Some groups ->
  (forall g, In g groups -> exists keep, g = filter keep (dkeys td)) /\
  ((forall t t' tt tt' line line', runs td t tt -> runs td t' tt' -> leaves tt s s2 line -> leaves tt' s s2 line' ->
      incl line line' -> incl line' line) -> NoDup (List.concat groups)).
Proof.
  intros td st imp d s inner s2 groups ND SA AN VO HK E D DG. destruct (jd_all td st imp ND SA AN VO HK) as (d' & E' & K & H).
  assert (d' = d) by congruence. subst d'. destruct (H s inner D) as (A & l & keep & KL & HT & G1 & G2 & G3 & G4 & G5 & G6).
  assert (GO : groups_of inner s2 = groups) by (unfold groups_of; rewrite DG; reflexivity). split.
  - intros g Hg. rewrite <- GO in Hg. destruct (G5 s2 g Hg) as (k & ->). rewrite KL, filter_filter. eauto.
  - intros X. rewrite <- GO. apply G6. intros t t' line line' (tt & R & L) (tt' & R' & L') I. exact (X t t' tt tt' line line' R R' L L' I).
Qed.
Print Assumptions C41_order.

(** ** C55: trains over common blocks are grouped *)

(** A train all of whose blocks belong to a train listed before it shares a group with it. *)
Theorem C55_grouped_partial : forall td st imp,
  NoDup (dkeys td) -> stations_apart st -> all_annotated st td -> all_visit_once td ->
  (forall s, asked st imp s -> In s (dkeys st)) ->
  exists d, jd td st imp = Ok d /\
    forall s s2 u t v t' w tt tt' line line', asked st imp s ->
      dkeys td = u ++ t :: v ++ t' :: w -> runs td t tt -> runs td t' tt' ->
      leaves tt s s2 line -> leaves tt' s s2 line' -> incl line' line ->
      exists inner groups g, dget s d = Some inner /\ dget s2 inner = Some groups /\
        In g groups /\ In t g /\ In t' g.
Proof.
  intros td st imp ND SA AN VO HK. destruct (jd_all td st imp ND SA AN VO HK) as (d & E & K & H).
  exists d. split; auto. intros s s2 u t v t' w tt tt' line line' A EQ R R' L L' I.
  destruct (K s A) as (inner & D). destruct (H s inner D) as (_ & l & keep & KL & HT & G1 & G2 & G3 & G4 & G5 & G6).
  assert (PS : forall x rows ln, runs td x rows -> leaves rows s s2 ln -> In x l).
  { intros x rows ln Rx Lx. apply HT. exists rows. split; auto.
    destruct Lx as (p & r1 & m & r2 & q & -> & A1 & _). exists r1. split; auto. apply in_app_iff. simpl. auto. }
  assert (KT := PS t tt line R L). assert (KT' := PS t' tt' line' R' L').
  rewrite KL in KT, KT'. apply filter_In in KT as [_ KT]. apply filter_In in KT' as [_ KT'].
  assert (SP : l = filter keep u ++ t :: filter keep v ++ t' :: filter keep w).
  { rewrite KL, EQ, filter_app. simpl. rewrite KT, filter_app. simpl. rewrite KT'. reflexivity. }
  destruct (G3 s2 _ t _ t' _ line line' SP) as (g & Hg & Ht & Ht'); auto;
    [exists tt; auto|exists tt'; auto|].
  unfold groups_of in Hg. destruct (dget s2 inner) as [groups|] eqn:DG; [|destruct Hg].
  exists inner, groups, g. auto.
Qed.
Print Assumptions C55_grouped_partial.

(** Trains from A to B over blocks x, y, both or one of them *)
Definition line_td (lines : list (Z * list string)) : train_dict :=
  map (fun e => (fst e, (["KS - Os"],
    at_ "a1" (Some "A") :: map (fun b => at_ b None) (snd e) ++ [at_ "b1" (Some "B")]))) lines.

Lemma line_td_ok lines : NoDup (map fst lines) ->
  (forall e b, In e lines -> In b (snd e) -> ~ In b ["a1"; "a2"; "b1"; "b2"; "c1"]) ->
  NoDup (dkeys (line_td lines)) /\ all_annotated abc_st (line_td lines) /\ all_visit_once (line_td lines) /\
  forall e, In e lines -> exists tt, runs (line_td lines) (fst e) tt /\ leaves tt "A" "B" (snd e).
Proof.
  intros ND F.
  assert (KEYS : NoDup (dkeys (line_td lines))).
  { unfold dkeys, line_td. rewrite map_map. exact ND. }
  split; [exact KEYS|]. split; [|split].
  - intros t info tt H r s Hr. apply in_map_iff in H as (e & E & He). inversion E; subst. clear E.
    rewrite abc_station. destruct Hr as [<-|Hr]; [cbn; intuition congruence|].
    apply in_app_iff in Hr as [Hr|[<-|[]]]; [|cbn; intuition congruence].
    apply in_map_iff in Hr as (b & <- & Hb). specialize (F e b He Hb). cbn. split; [discriminate|].
    intros X. exfalso. apply F. simpl. intuition.
  - intros t tt (i & H). apply dget_in in H. apply in_map_iff in H as (e & E & He). inversion E; subst. clear E.
    apply visits_once_nodup.
    change (at_ "a1" (Some "A") :: map (fun b => at_ b None) (snd e) ++ [at_ "b1" (Some "B")])
      with ([at_ "a1" (Some "A")] ++ map (fun b => at_ b None) (snd e) ++ [at_ "b1" (Some "B")]).
    rewrite !stations_app.
    assert (M : train_important_stations (map (fun b => at_ b None) (snd e)) = []).
    { induction (snd e) as [|b l IH]; simpl; auto. }
    rewrite M. simpl. repeat constructor; simpl; intuition discriminate.
  - intros e He. eexists. split.
    + eexists. apply in_dget; [exact KEYS|]. unfold line_td. apply in_map_iff. exists e. split; [reflexivity|exact He].
    + exists [], (at_ "a1" (Some "A")), (map (fun b => at_ b None) (snd e)), (at_ "b1" (Some "B")), [].
      split; [reflexivity|]. split; auto. split; auto. split.
      * intros r Hr. apply in_map_iff in Hr as (b & <- & _). reflexivity.
      * rewrite map_map. cbn. rewrite map_id. reflexivity.
Qed.

Definition follow_lines : list (Z * list string) := [(1, ["x"; "y"]); (2, ["x"]); (3, ["y"])]%Z.

Lemma follow_ok : NoDup (map fst follow_lines) /\
  forall e b, In e follow_lines -> In b (snd e) -> ~ In b ["a1"; "a2"; "b1"; "b2"; "c1"].
Proof.
  split; [repeat constructor; simpl; intuition discriminate|].
  intros e b [<-|[<-|[<-|[]]]]; simpl; intuition (subst; discriminate).
Qed.

Example C41_case : jd (line_td follow_lines) abc_st None =
  Ok [("A", [("B", [[1; 2; 3]])]); ("B", []); ("C", [])]%Z.
Proof. vm_compute. reflexivity. Qed.

(** Trains 2 and 3 are in one group and have no common block. *)
Theorem C41_common_refuted : exists td st d inner groups g t t' tt tt' line line',
  NoDup (dkeys td) /\ stations_apart st /\ all_annotated st td /\ all_visit_once td /\
  jd td st None = Ok d /\ dget "A" d = Some inner /\ dget "B" inner = Some groups /\ In g groups /\
  In t g /\ In t' g /\ runs td t tt /\ runs td t' tt' /\
  leaves tt "A" "B" line /\ leaves tt' "A" "B" line' /\ forall b, In b line -> ~ In b line'.
Proof.
  destruct follow_ok as [N F]. destruct (line_td_ok follow_lines N F) as (K & A & V & R).
  destruct (R (2, ["x"])%Z) as (t2 & R2 & L2); [simpl; auto|].
  destruct (R (3, ["y"])%Z) as (t3 & R3 & L3); [simpl; auto|].
  exists (line_td follow_lines), abc_st. do 3 eexists. exists [1; 2; 3]%Z, 2%Z, 3%Z, t2, t3, ["x"], ["y"].
  split; auto. split; [apply abc_apart|]. split; auto. split; auto. split; [apply C41_case|].
  split; [reflexivity|]. split; [reflexivity|]. split; [simpl; auto|]. split; [simpl; auto|]. split; [simpl; auto|].
  split; auto. split; auto. split; auto. split; auto. intros b [<-|[]] [X|[]]. discriminate.
Qed.
Print Assumptions C41_common_refuted.

(** Train 1 runs over x, train 2 over x and y: they are in no common group. *)
Theorem C55_longer_refuted : exists td st d t t' tt tt' line line' b,
  NoDup (dkeys td) /\ stations_apart st /\ all_annotated st td /\ all_visit_once td /\
  jd td st None = Ok d /\ t <> t' /\ runs td t tt /\ runs td t' tt' /\
  leaves tt "A" "B" line /\ leaves tt' "A" "B" line' /\ In b line /\ In b line' /\
  forall s s2 inner groups g, dget s d = Some inner -> dget s2 inner = Some groups -> In g groups ->
    ~ (In t g /\ In t' g).
Proof.
  set (lines := [(1, ["x"]); (2, ["x"; "y"])]%Z).
  assert (N : NoDup (map fst lines)) by (repeat constructor; simpl; intuition discriminate).
  assert (F : forall e b, In e lines -> In b (snd e) -> ~ In b ["a1"; "a2"; "b1"; "b2"; "c1"]).
  { intros e b [<-|[<-|[]]]; simpl; intuition (subst; discriminate). }
  destruct (line_td_ok lines N F) as (K & A & V & R).
  destruct (R (1, ["x"])%Z) as (t1 & R1 & L1); [simpl; auto|].
  destruct (R (2, ["x"; "y"])%Z) as (t2 & R2 & L2); [simpl; auto|].
  exists (line_td lines), abc_st, [("A", [("B", [[1]; [2]])]); ("B", []); ("C", [])]%Z, 1%Z, 2%Z, t1, t2, ["x"], ["x"; "y"], "x".
  split; auto. split; [apply abc_apart|]. split; auto. split; auto. split; [vm_compute; reflexivity|].
  split; [discriminate|]. split; auto. split; auto. split; auto. split; auto. split; [simpl; auto|].
  split; [simpl; auto|]. intros s s2 inner groups g D1 D2 Hg [X Y].
  apply dget_in in D1 as [D1|[D1|[D1|[]]]]; inversion D1; subst; try discriminate.
  apply dget_in in D2 as [D2|[]]. inversion D2; subst. destruct Hg as [<-|[<-|[]]]; simpl in X, Y; intuition discriminate.
Qed.
Print Assumptions C55_longer_refuted.
