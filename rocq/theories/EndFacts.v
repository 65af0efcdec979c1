(** * EndFacts: the input of the solver in terms of the tables *)

From Coq Require Import List String Ascii ZArith QArith Qround Qabs Bool Lia Lqa.
From Verif Require Import Base BaseFacts Pulp Helpers LinearSolver Spec DataTables DataSets DataTimes Pipeline
  SpecTables SpecSets SpecDurations SpecEnd FileFacts TableFacts SetFacts TimeFacts Builds
  PropsTables PropsSets PropsSwitch PropsTimes PropsHeadway PropsPrep PropsSchedule.
From Verif Require Import SpecTables SpecSets.
Import ListNotations.
Open Scope string_scope.
Open Scope list_scope.

(** ** Dictionaries under renaming *)

Lemma dget_embed {K K' V V'} `{EqDec K} `{EqDec K'} (f : K -> K') (g : V -> V') (d : dict K V) k :
  (forall a b, f a = f b -> a = b) ->
  dget (f k) (map (fun e => (f (fst e), g (snd e))) d) = option_map g (dget k d).
Proof.
  intros inj. induction d as [|[a v] d IH]; [reflexivity|]. cbn [map dget fst snd].
  destruct (eq_dec k a) as [->|N].
  - destruct (eq_dec (f a) (f a)); [reflexivity|congruence].
  - destruct (eq_dec (f k) (f a)) as [E|]; [apply inj in E; congruence|exact IH].
Qed.

Lemma dkeys_embed {K K' V V'} (f : K -> K') (g : V -> V') (d : dict K V) :
  dkeys (map (fun e => (f (fst e), g (snd e))) d) = map f (dkeys d).
Proof. unfold dkeys. rewrite !map_map. reflexivity. Qed.

Lemma train_inj a b : train a = train b -> a = b.
Proof. unfold train. congruence. Qed.
Lemma station_inj a b : station a = station b -> a = b.
Proof. unfold station. congruence. Qed.

Lemma dset_nodup {K V} `{EqDec K} k (v : V) d : NoDup (dkeys d) -> NoDup (dkeys (dset k v d)).
Proof.
  intros N. rewrite dkeys_dset. destruct (dmem k d) eqn:E; [exact N|]. apply dmem_false in E.
  apply nodup_app; [exact N|repeat constructor; auto|]. intros x Hx [<-|[]]. exact (E Hx).
Qed.

Lemma dset_key_in {K V} `{EqDec K} k (v : V) d k' : In k' (dkeys (dset k v d)) -> k' = k \/ In k' (dkeys d).
Proof.
  rewrite dkeys_dset. destruct (dmem k d); [auto|]. rewrite in_app_iff. intros [|[->|[]]]; auto.
Qed.

Lemma dappend_shape {K V} `{EqDec K} k (v : V) d : exists l, dappend k v d = dset k l d.
Proof. unfold dappend. destruct (dget k d); eauto. Qed.

Lemma listed_map {A B} (f : A -> B) l a b : listed l a b -> listed (map f l) (f a) (f b).
Proof.
  intros (u & v & w & ->). exists (map f u), (map f v), (map f w). rewrite map_app. cbn. rewrite map_app. reflexivity.
Qed.

(** ** Keys of the time spans *)

Lemma joined2 j s : joined [train j; station s] = key2 j s. Proof. reflexivity. Qed.
Lemma joined3 j s s2 : joined [train j; station s; station s2] = key3 j s s2. Proof. reflexivity. Qed.
Lemma joined4 j k s s2 : joined [train j; train k; station s; station s2] = key4 j k s s2. Proof. reflexivity. Qed.

(** ** Keys of the sets *)

Definition keys_in {K V} (P : K -> Prop) (d : dict K V) : Prop := NoDup (dkeys d) /\ forall k, In k (dkeys d) -> P k.

Lemma keys_nil {K V} (P : K -> Prop) : keys_in P ([] : dict K V).
Proof. split; [constructor|intros k []]. Qed.

Lemma keys_set {K V} `{EqDec K} (P : K -> Prop) k (v : V) d : keys_in P d -> P k -> keys_in P (dset k v d).
Proof.
  intros [H1 H2] Pk. split; [apply dset_nodup, H1|]. intros k' I. apply dset_key_in in I as [->|I]; auto.
Qed.

Lemma keys_append {K V} `{EqDec K} (P : K -> Prop) k (v : V) d : keys_in P d -> P k -> keys_in P (dappend k v d).
Proof. intros H1 H2. destruct (dappend_shape k v d) as (l & ->). apply keys_set; assumption. Qed.

Lemma jd_keys td st imp d : jd td st imp = Ok d ->
  keys_in (asked st imp) d /\ forall s inner, In (s, inner) d -> NoDup (dkeys inner).
Proof.
  intros H. unfold jd in H.
  refine (foldM_inv (fun d => keys_in (asked st imp) d /\ forall s inner, In (s, inner) d -> NoDup (dkeys inner)) _ _ _ _ _ _ H).
  - split; [apply keys_nil|intros ? ? []].
  - intros acc s acc' Is [I1 I2] E. inv_bind E. inv_bind E. inversion E; subst. split.
    + apply keys_set; [exact I1|]. apply asked_in. exact Is.
    + assert (N : NoDup (dkeys a0)).
      { refine (foldM_inv (fun d => NoDup (dkeys d)) _ _ _ _ _ _ E1); [constructor|].
        intros b x b' _ Hb Eb. inv_bind Eb. inv_bind Eb. destruct a2 as [s2|]; [|inversion Eb; subst; exact Hb].
        cbn zeta in Eb. inv_bind Eb. inversion Eb; subst. apply dset_nodup, Hb. }
      intros s' inner I. apply (in_dget _ _ _ (proj1 (keys_set _ s a0 acc I1 (proj2 (asked_in _ _ _) Is)))) in I.
      rewrite dget_dset in I. destruct (eq_dec s' s); [inversion I; subst; exact N|]. apply dget_in in I. eapply I2; eauto.
Qed.

Lemma josingle_keys td st imp d : josingle td st imp = Ok d ->
  keys_in (fun k => asked st imp (fst k) /\ asked st imp (snd k)) d.
Proof.
  intros H. unfold josingle in H. refine (foldM_inv (keys_in _) _ _ _ _ (keys_nil _) _ H).
  intros acc s acc' Is I E. inv_bind E.
  refine (foldM_inv (keys_in _) _ _ _ _ I _ E). intros b j b' _ Ib Eb. inv_bind Eb. inv_bind Eb.
  destruct a1 as [s'|]; [|inversion Eb; subst; exact Ib].
  destruct (lmem s' (imp_stations_list st imp)) eqn:M; [|inversion Eb; subst; exact Ib].
  apply lmem_true in M. refine (foldM_inv (keys_in _) _ _ _ _ Ib _ Eb). intros c j' c' _ Ic Ec.
  destruct (eqb j' j); [inversion Ec; subst; exact Ic|]. inv_bind Ec. inv_bind Ec.
  destruct (eqb a2 (Some s) && negb (dmem (s', s) c)); [|inversion Ec; subst; exact Ic].
  unfold josingle_dict_generate in Ec. inv_bind Ec. inv_bind Ec. inv_bind Ec. destruct a5 as [p1 q1]. inv_bind Ec. destruct a5 as [p2 q2].
  destruct (negb _ && eqb _ _); inversion Ec; subst; [|exact Ic].
  apply keys_append; [exact Ic|]. cbn. split; apply asked_in; assumption.
Qed.

Lemma get_jround_shape td st d : get_jround td st = Ok d ->
  keys_in (fun s => In s (dkeys st)) d /\
  forall s l j k, In (s, l) d -> In (j, k) l -> In j (dkeys td) /\ In k (dkeys td) /\ exists x, same_stock x j k.
Proof.
  intros H. unfold get_jround in H. inv_bind H. inversion H; subst. clear H.
  refine (foldM_inv (fun a => keys_in (fun s => In s (dkeys st)) (snd a) /\
    forall s l j k, In (s, l) (snd a) -> In (j, k) l -> In j (dkeys td) /\ In k (dkeys td) /\ exists x, same_stock x j k) _ _ _ _ _ _ E).
  - split; [apply keys_nil|intros ? ? ? ? []].
  - intros [blk acc] [x y] acc' I [I1 I2] F. cbn [fst snd] in *.
    assert (XY : In x (dkeys td) /\ In y (dkeys td) /\ y = (x * 10 + 9)%Z).
    { unfold get_trains_pair9, get_J in I. apply in_flat_map in I as (t & It & I).
      destruct (lmem (t * 10 + 9)%Z (dkeys td)) eqn:M; [|destruct I]. destruct I as [I|[]]. inversion I; subst.
      apply lmem_true in M. auto. }
    destruct XY as (X1 & X2 & ->). do 6 (inv_bind F).
    match type of F with (let '(b, pr) := ?t in _) = _ => destruct t as [[b|] pr] eqn:T end; [|discriminate].
    inv_bind F. inversion F; subst; clear F. cbn [snd].
    assert (PR : pr = (x, (x * 10 + 9)%Z) \/ pr = ((x * 10 + 9)%Z, x)).
    { destruct (eqb a2 a3); [inversion T; auto|]. destruct (eqb a4 a5); inversion T; auto. }
    assert (ST : In a6 (dkeys st)).
    { unfold station_with in E6. destruct (filter _ st) as [|kv f] eqn:Fe; [discriminate|]. inversion E6; subst.
      assert (I' : In kv (filter (fun kv => lmem block (snd kv)) st)) by (rewrite Fe; left; reflexivity).
      apply filter_In in I' as [I' _]. unfold dkeys. apply in_map. exact I'. }
    split; [apply keys_append; assumption|].
    intros s l j k Il Ij.
    assert (ND : NoDup (dkeys (dappend a6 pr acc))) by (apply (keys_append _ a6 pr acc I1 ST)).
    apply (in_dget _ _ _ ND) in Il. unfold dappend in Il.
    assert (Old : forall l0, dget s acc = Some l0 -> In (j, k) l0 -> In j (dkeys td) /\ In k (dkeys td) /\ exists x, same_stock x j k)
      by (intros l0 G0 J0; apply dget_in in G0; eapply I2; eauto).
    assert (New : (j, k) = pr -> In j (dkeys td) /\ In k (dkeys td) /\ exists x, same_stock x j k).
    { intros <-. unfold same_stock. destruct PR as [PR|PR]; inversion PR; subst; (split; [assumption|]; split; [assumption|]; exists x; auto). }
    destruct (dget a6 acc) as [l0|] eqn:G; rewrite dget_dset in Il; destruct (eq_dec s a6) as [->|]; try (eapply Old; eassumption).
    + inversion Il; subst. apply in_app_iff in Ij as [Ij|[Ij|[]]]; [eapply Old; eassumption|auto].
    + inversion Il; subst. destruct Ij as [Ij|[]]; auto.
Qed.

Lemma jtrack_keys td st imp d : jtrack td st imp = Ok d -> keys_in (asked st imp) d.
Proof.
  intros H. unfold jtrack in H. inv_bind H. inversion H; subst; clear H.
  assert (K : keys_in (asked st imp) a).
  { refine (foldM_inv (keys_in _) _ _ _ _ (keys_nil _) _ E). intros acc s acc' Is I F.
    destruct (negb _); [|inversion F; subst; exact I]. inv_bind F. inv_bind F. inversion F; subst.
    apply keys_set; [exact I|]. apply asked_in, Is. }
  unfold keys_in, jtrack_dict_generation, dkeys in *. rewrite map_map. exact K.
Qed.

Lemma jswitch_keys td st net imp d : jswitch td st net imp = Ok d -> keys_in (asked st imp) d.
Proof.
  intros H. unfold jswitch in H. refine (foldM_inv (keys_in _) _ _ _ _ (keys_nil _) _ H).
  intros acc s acc' Is I F. inv_bind F. inv_bind F. inv_bind F. inversion F; subst.
  apply keys_set; [exact I|]. apply asked_in, Is.
Qed.

(** ** The parts of the input *)

Definition emb_skip (sk : dict Z string) : dict pv pv := map (fun e => (train (fst e), station (snd e))) sk.
Definition emb_paths (d : dict Z (list string)) : dict pv (list pv) := map (fun e => (train (fst e), map station (snd e))) d.
Definition emb_groups (inner : dict string (list (list Z))) : dict pv (list (list pv)) :=
  map (fun f => (station (fst f), map trains (snd f))) inner.
Definition emb_jd (d : dict string (dict string (list (list Z)))) : dict pv (dict pv (list (list pv))) :=
  map (fun e => (station (fst e), emb_groups (snd e))) d.
Definition station2 (k : string * string) : pv * pv := (station (fst k), station (snd k)).
Definition emb_line (d : dict (string * string) (list (Z * Z))) : dict (pv * pv) (list (pv * pv)) :=
  map (fun e => (station2 (fst e), map two_trains (snd e))) d.
Definition emb_round (d : dict string (list (Z * Z))) : dict pv (list (pv * pv)) :=
  map (fun e => (station (fst e), map two_trains (snd e))) d.
Definition movement (m : dict Z string) : dict pv pv := map (fun f => (train (fst f), PStr (snd f))) m.
Definition emb_switch (d : dict string (list (dict Z string))) : dict pv (list (dict pv pv)) :=
  map (fun e => (station (fst e), map movement (snd e))) d.

Lemma station2_inj a b : station2 a = station2 b -> a = b.
Proof. destruct a, b. unfold station2, station. cbn. congruence. Qed.

(** [ts] and [tt] are the sets and times made from the tables. *)
Definition made (td : train_dict) (st : station_blocks) (net : list netrow) (t1 : string) (delays : list (Z * Q))
    (ts : train_sets) (tt : timetable) : Prop :=
  (exists sk w, get_skip_stations td = Ok sk /\ ts_skip ts = Some (emb_skip sk) /\
     make_weights td sk (MkWeights 1 (3 # 2) (7 # 4) 0) = Ok w /\ tt_weights tt = w) /\
  ts_Paths ts = emb_paths (get_Paths td) /\ ts_J ts = trains (dkeys td) /\
  (exists d, jd td st None = Ok d /\ ts_Jd ts = emb_jd d) /\
  (exists d, josingle td st None = Ok d /\ ts_Josingle ts = emb_line d) /\
  (exists d, get_jround td st = Ok d /\ ts_Jround ts = emb_round d) /\
  (exists d, jtrack td st None = Ok d /\ ts_Jtrack ts = emb_groups d) /\
  (exists d, jswitch td st net None = Ok d /\ ts_Jswitch ts = emb_switch d) /\
  ts_add_switches ts = None /\
  get_taus_pass td None 1 = Ok (tt_pass tt) /\ get_taus_headway td st 1 = Ok (tt_headway tt) /\
  (exists prep extra, get_taus_prep td st 1 = Ok prep /\ get_taus_stop td st None 1 = Ok (tt_stop tt, extra) /\
     tt_prep tt = dupdate prep extra) /\
  tt_res tt = Some 1 /\ get_schedule td t1 = Ok (tt_schedule tt) /\
  (exists init, get_initial_conditions td t1 = Ok init /\
     tt_init tt = fold_left (fun init d => add_delay init (fst d) (snd d)) delays init).

Lemma parts td st net t1 delays d_max cat ts tt p :
  tables_to_problem td st net t1 delays d_max cat = Ok (ts, tt, p) ->
  create_linear_problem ts tt d_max cat = Ok p /\ made td st net t1 delays ts tt.
Proof.
  intros H. unfold tables_to_problem in H. inv_bind H. rename a into sk, E into Esk.
  inv_bind H. rename a into ts0, E into Ets. inv_bind H. rename a into tt0, E into Ett. cbn zeta in H.
  inv_bind H. inversion H; subst; clear H. split; [exact E|].
  unfold make_train_set in Ets. inv_bind Ets. inv_bind Ets. inv_bind Ets. inv_bind Ets. inv_bind Ets.
  inversion Ets; subst; clear Ets.
  unfold make_timetable, make_taus in Ett. inv_bind Ett. inv_bind E5. inv_bind E5. inv_bind E5. inv_bind E5.
  destruct a8 as [stop extra]. inversion E5; subst; clear E5. cbn [t_pass t_headway t_stop t_prep t_res] in Ett.
  inv_bind Ett. inv_bind Ett. inv_bind Ett. inversion Ett; subst; clear Ett.
  unfold made. cbn [ts_skip ts_Paths ts_J ts_Jd ts_Josingle ts_Jround ts_Jtrack ts_Jswitch ts_add_switches with_delays
       tt_pass tt_headway tt_stop tt_prep tt_res tt_schedule tt_init tt_weights].
  repeat split; eauto 8.
Qed.

(** ** Names *)

Lemma passes_station td st t tt s : tidy td st -> runs td t tt -> passes tt s -> In s (dkeys st).
Proof.
  intros T (info & R) (r & Ir & Er). apply dget_in in R.
  apply (proj1 (tidy_marked _ _ T t info tt R r s Ir)) in Er as (bs & Hs & _). apply (in_map fst) in Hs. exact Hs.
Qed.

Lemma named td st : tidy td st -> named_well td.
Proof.
  intros T t tt s R P. destruct (tidy_names _ _ T s (passes_station _ _ _ _ _ T R P)) as (A & _ & B). auto.
Qed.

Lemma paths_stations td st t path s : tidy td st -> In (t, path) (get_Paths td) -> In s path -> In s (dkeys st).
Proof.
  intros T I Is. unfold get_Paths in I. apply in_map_iff in I as ([t' [info tt]] & E & I). inversion E; subst. cbn in Is.
  apply stations_in in Is. apply (passes_station td st t tt); auto. exists info. apply in_dget; [apply T|exact I].
Qed.

Lemma emb_stations (P : string -> Prop) l q : (forall s, In s l -> P s) -> In q (map station l) -> exists s, q = station s /\ P s.
Proof. intros H I. apply in_map_iff in I as (s & <- & I). eauto. Qed.

Lemma jd_stations td st d s inner : tidy td st -> jd td st None = Ok d -> In (s, inner) d ->
  In s (dkeys st) /\ forall s2, In s2 (dkeys inner) -> In s2 (dkeys st).
Proof.
  intros T H I. destruct (jd_keys _ _ _ _ H) as [[N A] NI]. cbn in A. split.
  - apply A. apply (in_map fst) in I. exact I.
  - intros s2 I2. apply (in_dget _ _ _ N) in I.
    (* the entry was made for a train that goes on to [s2] *)
    unfold jd in H.
    assert (Q : forall d, foldM (fun d s =>
        do trains <- dlookup s (get_trains_at_station td st false);
        do inner <- foldM (fun inner j =>
            do tj <- train_time_table td j; do s2 <- next_station tj s;
            match s2 with
            | None => Ok inner
            | Some s2 =>
                let groups := match dget s2 inner with Some g => g | None => [] end in
                do groups <- jd_add td s s2 j tj groups; Ok (dset s2 groups inner)
            end) trains [];
        Ok (dset s inner d)) (imp_stations_list st None) [] = Ok d ->
      forall s inner, dget s d = Some inner -> forall s2, In s2 (dkeys inner) -> In s2 (dkeys st)).
    { clear - T. intros d H. refine (foldM_inv (fun d => forall s inner, dget s d = Some inner -> forall s2, In s2 (dkeys inner) -> In s2 (dkeys st)) _ _ _ _ _ _ H).
      - discriminate.
      - intros acc s acc' _ I F. inv_bind F. inv_bind F. inversion F; subst; clear F.
        intros s' inner' G. rewrite dget_dset in G. destruct (eq_dec s' s); [|eapply I; eauto]. inversion G; subst; clear G.
        refine (foldM_inv (fun d => forall s2, In s2 (dkeys d) -> In s2 (dkeys st)) _ _ _ _ _ _ E0).
        + intros s2 [].
        + intros b x b' _ Ib Eb. inv_bind Eb. inv_bind Eb. destruct a1 as [s2|]; [|inversion Eb; subst; exact Ib].
          cbn zeta in Eb. inv_bind Eb. inversion Eb; subst; clear Eb. intros k K. apply dset_key_in in K as [->|K]; [|auto].
          apply time_table_ok in E1. apply next_station_ok in E2. destruct E2 as (u & v & E2 & _).
          apply (passes_station td st x a0 s2 T E1). apply stations_in. rewrite E2. apply in_or_app. right. right. left. reflexivity. }
    exact (Q d H s inner I s2 I2).
Qed.

Lemma in_concat_map {A B} (f : A -> B) ll x : In x (List.concat (map (map f) ll)) -> exists a, x = f a.
Proof. intros H. apply in_concat in H as (l & Il & Ix). apply in_map_iff in Il as (l0 & <- & _). apply in_map_iff in Ix as (a & <- & _). eauto. Qed.

Section Problem.
  Context td st net t1 delays ts tt (T : tidy td st) (H : made td st net t1 delays ts tt).

  Lemma made_train j : In j (mentioned_trains ts) -> exists z, j = train z.
  Proof.
    destruct H as (_ & P & J & (d & _ & Jd) & (o & _ & Jo) & (r & _ & Jr) & (t & _ & Jt) & (w & _ & Jw) & _).
    unfold mentioned_trains. rewrite P, J, Jd, Jo, Jr, Jt, Jw.
    rewrite !in_app_iff. intros [I|[I|[I|[I|[I|[I|I]]]]]].
    - apply in_map_iff in I as (z & <- & _). eauto.
    - unfold emb_paths in I. rewrite dkeys_embed in I. apply in_map_iff in I as (z & <- & _). eauto.
    - apply in_flat_map in I as (e & Ie & I). apply in_map_iff in Ie as (e0 & <- & _). cbn [snd] in I.
      apply in_flat_map in I as (q & Iq & I). apply in_map_iff in Iq as (q0 & <- & _). cbn in I. destruct I as [<-|[<-|[]]]; eauto.
    - apply in_flat_map in I as (e & Ie & I). apply in_map_iff in Ie as (e0 & <- & _). cbn [snd] in I.
      apply in_flat_map in I as (q & Iq & I). apply in_map_iff in Iq as (q0 & <- & _). cbn [snd] in I. apply in_concat_map in I. exact I.
    - apply in_flat_map in I as (e & Ie & I). apply in_map_iff in Ie as (e0 & <- & _). cbn [snd] in I.
      apply in_flat_map in I as (q & Iq & I). apply in_map_iff in Iq as (q0 & <- & _). cbn in I. destruct I as [<-|[<-|[]]]; eauto.
    - apply in_flat_map in I as (e & Ie & I). apply in_map_iff in Ie as (e0 & <- & _). cbn [snd] in I. apply in_concat_map in I. exact I.
    - apply in_flat_map in I as (e & Ie & I). apply in_map_iff in Ie as (e0 & <- & _). cbn [snd] in I.
      apply in_flat_map in I as (q & Iq & I). apply in_map_iff in Iq as (q0 & <- & _). unfold movement in I. rewrite (dkeys_embed train PStr) in I.
      apply in_map_iff in I as (z & <- & _). eauto.
  Qed.

  Lemma made_station q : In q (mentioned_stations ts) -> exists s, q = station s /\ In s (dkeys st).
  Proof.
    destruct H as (_ & P & J & (d & Ed & Jd) & (o & Eo & Jo) & (r & Er & Jr) & (t & Et & Jt) & (w & Ew & Jw) & _).
    unfold mentioned_stations. rewrite P, Jd, Jo, Jr, Jt, Jw.
    rewrite !in_app_iff. intros [I|[I|[I|[I|[I|I]]]]].
    - apply in_concat in I as (l & Il & Iq). unfold emb_paths in Il. rewrite map_map in Il. apply in_map_iff in Il as ([z path] & <- & Ip).
      cbn [snd] in Iq. apply in_map_iff in Iq as (s & <- & Is). exists s. split; [reflexivity|]. eapply paths_stations; eauto.
    - apply in_flat_map in I as (e & Ie & I). apply in_map_iff in Ie as ([k l] & <- & Ie). destruct (josingle_keys _ _ _ _ Eo) as [_ K].
      destruct (K k) as [K1 K2]; [apply (in_map fst) in Ie; exact Ie|]. cbn in I. destruct I as [<-|[<-|[]]]; eauto.
    - apply in_flat_map in I as (e & Ie & I). apply in_map_iff in Ie as ([s inner] & <- & Ie). cbn [fst snd] in I.
      destruct (jd_stations _ _ _ _ _ T Ed Ie) as [A B]. destruct I as [<-|I]; [eauto|].
      unfold emb_groups in I. rewrite dkeys_embed in I. apply in_map_iff in I as (s2 & <- & I2). eauto.
    - unfold emb_round in I. rewrite dkeys_embed in I. eapply emb_stations; [|exact I]. apply (get_jround_shape _ _ _ Er).
    - unfold emb_groups in I. rewrite dkeys_embed in I. eapply emb_stations; [|exact I]. apply (jtrack_keys _ _ _ _ Et).
    - unfold emb_switch in I. rewrite dkeys_embed in I. eapply emb_stations; [|exact I]. apply (jswitch_keys _ _ _ _ _ Ew).
  Qed.

  Lemma no_us_one : ~ no_underscore "one_station".
  Proof. intros N. apply (N "one" "station"). reflexivity. Qed.

  Lemma made_reserved : reserved_free ts.
  Proof.
    split.
    - intros j I. apply made_train in I as (z & ->). repeat split; discriminate.
    - intros q I. apply made_station in I as (s & -> & Is). split; [discriminate|]. unfold station. intros E. inversion E; subst.
      destruct (tidy_names _ _ T _ Is) as (_ & _ & N). exact (no_us_one N).
  Qed.
End Problem.

Lemma reserved_ok td st net t1 delays d_max cat ts tt p : tidy td st ->
  tables_to_problem td st net t1 delays d_max cat = Ok (ts, tt, p) -> reserved_free ts.
Proof. intros T H. apply parts in H. eapply made_reserved; [exact T|apply H]. Qed.

(** ** Initial conditions *)

Lemma dupdate_keys {V} es : forall (d : dict string V), (forall k, In k (map fst es) -> In k (dkeys d)) -> dkeys (dupdate d es) = dkeys d.
Proof.
  induction es as [|[k v] es IH]; intros d K; [reflexivity|]. cbn [dupdate fold_left fst snd]. change (dkeys (dupdate (dset k v d) es) = dkeys d).
  assert (E : dkeys (dset k v d) = dkeys d).
  { rewrite dkeys_dset. assert (M : dmem k d = true) by (apply dmem_true, K; left; reflexivity). rewrite M. reflexivity. }
  rewrite IH; [exact E|]. intros k' I. rewrite E. apply K. right. exact I.
Qed.

Lemma add_delay_keys d t q : dkeys (add_delay d t q) = dkeys d.
Proof.
  unfold add_delay. apply dupdate_keys. intros k I. rewrite map_map in I. cbn in I. apply in_map_iff in I as (kv & <- & I).
  apply filter_In in I as [I _]. apply (in_map fst) in I. exact I.
Qed.

Lemma delays_keys delays : forall d, dkeys (fold_left (fun init d => add_delay init (fst d) (snd d)) delays d) = dkeys d.
Proof. induction delays as [|[t q] l IH]; intros d; [reflexivity|]. exact (eq_trans (IH _) (add_delay_keys _ _ _)). Qed.

Lemma initial_keys td st t1 d k : tidy td st -> get_initial_conditions td t1 = Ok d -> In k (dkeys d) ->
  exists t tt s, runs td t tt /\ passes tt s /\ k = key2 t s.
Proof.
  intros T H. unfold get_initial_conditions in H.
  refine (foldM_inv (fun d => forall k, In k (dkeys d) -> exists t tt s, runs td t tt /\ passes tt s /\ k = key2 t s) _ _ _ _ _ _ H k).
  - intros ? [].
  - intros acc [t [info tt]] acc' I A E. cbn [fst snd] in E.
    destruct (filter _ tt) as [|r f] eqn:F; [discriminate|].
    assert (Ir : In r tt).
    { assert (I' : In r (r :: f)) by (left; reflexivity). rewrite <- F in I'. apply filter_In in I'. apply I'. }
    destruct (r_station r) as [s|] eqn:Rs; [|discriminate]. inv_bind E. inversion E; subst; clear E.
    intros k' K. apply dset_key_in in K as [->|K]; [|auto]. exists t, tt, s. split; [exists info; apply in_dget; [apply T|exact I]|].
    split; [|reflexivity]. exists r. auto.
Qed.

Lemma last_us a a' r r' : no_underscore r -> no_underscore r' -> (a ++ "_" ++ r = a' ++ "_" ++ r')%string -> r = r'.
Proof.
  intros N N'. revert a'. induction a as [|c a IH]; intros [|c' a'] E; cbn in E.
  - inversion E; auto.
  - inversion E; subst. exfalso. apply (N a' r'). reflexivity.
  - inversion E; subst. exfalso. apply (N' a r). reflexivity.
  - inversion E; subst. eapply IH; eauto.
Qed.

Lemma none_ok td st net t1 delays d_max cat ts tt p : tidy td st ->
  tables_to_problem td st net t1 delays d_max cat = Ok (ts, tt, p) -> none_free tt.
Proof.
  intros T H j q I. apply parts in H. destruct H as (_ & _ & _ & _ & _ & _ & _ & _ & _ & _ & _ & _ & _ & _ & _ & (init & Ei & Et)).
  unfold initially in I. rewrite Et in I. apply dget_in in I. apply (in_map fst) in I. change (In (joined [j; PNone]) (dkeys (fold_left (fun init d => add_delay init (fst d) (snd d)) delays init))) in I.
  rewrite delays_keys in I. destruct (initial_keys _ _ _ _ _ T Ei I) as (t & tb & s & R & P & E).
  destruct (tidy_names _ _ T s (passes_station _ _ _ _ _ T R P)) as (_ & N & U).
  apply N. symmetry. unfold joined, key2 in E. cbn [map join_us str] in E. eapply last_us; [| |exact E]; [|exact U].
  intros a b. apply no_us_allc. reflexivity.
Qed.

Lemma key_get {K V} `{EqDec K} k (d : dict K V) : In k (dkeys d) -> exists a, dget k d = Some a.
Proof. intros I. destruct (dget k d) eqn:E; [eauto|]. apply dget_none in E. tauto. Qed.

Lemma goes_over_passes net tt s a z : goes_over net tt s a z -> passes tt s.
Proof.
  intros [[_ (pre & r1 & r & post & n & -> & R & _)]|[_ (pre & r & r2 & post & n & -> & R & _)]].
  - exists r. split; [|exact R]. apply in_or_app. right. right. left. reflexivity.
  - exists r. split; [|exact R]. apply in_or_app. right. left. reflexivity.
Qed.

Lemma dupdate_nodup {V} es : forall (d : dict string V), NoDup (dkeys d) -> NoDup (dkeys (dupdate d es)).
Proof. induction es as [|[k v] es IH]; intros d N; [exact N|]. exact (IH (dset k v d) (dset_nodup k v d N)). Qed.

Lemma foldM_each {A B} (f : B -> A -> res B) l : forall acc r x, foldM f l acc = Ok r -> In x l -> exists a a', f a x = Ok a'.
Proof.
  induction l as [|y l IH]; intros acc r x H I; [destruct I|]. cbn [foldM] in H. inv_bind H. destruct I as [->|I]; [eauto|eapply IH; eauto].
Qed.

Lemma initial_passes td t1 d t tt : get_initial_conditions td t1 = Ok d -> runs td t tt -> exists s, passes tt s.
Proof.
  intros H (info & R). apply dget_in in R. destruct (foldM_each _ _ _ _ _ H R) as (a & a' & E). cbn [fst snd] in E.
  destruct (filter _ tt) as [|r f] eqn:F; [discriminate|]. destruct (r_station r) as [s|] eqn:Rs; [|discriminate]. exists s, r.
  split; [|exact Rs]. assert (I : In r (r :: f)) by (left; reflexivity). rewrite <- F in I. apply filter_In in I. apply I.
Qed.
