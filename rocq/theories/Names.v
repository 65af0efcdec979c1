(** * Names: names of variables are different, and searching by name finds the variable *)

From Coq Require Import List String Ascii ZArith QArith Bool Arith Lia Lqa DecimalString.
From Verif Require Import Base Pulp Helpers LinearSolver BaseFacts Spec TreeFacts OrderVars
  Emit DelayVars Shapes Origin SpecFacts Sound Sim Rules SpecCompare Compare SpecNames.
Import ListNotations.
Open Scope string_scope.
Open Scope list_scope.

(** ** Strings *)

Lemma all_chars_app f a b : all_chars f (a ++ b)%string = all_chars f a && all_chars f b.
Proof. induction a as [|c a IH]; cbn; [reflexivity|]. rewrite IH, andb_assoc. reflexivity. Qed.

Lemma all_chars_imp (f g : ascii -> bool) s :
  (forall c, f c = true -> g c = true) -> all_chars f s = true -> all_chars g s = true.
Proof.
  intros H. induction s as [|c s IH]; cbn; auto. intros E. apply andb_true_iff in E as [E1 E2].
  rewrite (H _ E1), IH; auto.
Qed.

Definition plain_or_us (c : ascii) : bool := plain_char c || (nat_of_ascii c =? 95)%nat.

Lemma sanitize_fixed s : all_chars plain_or_us s = true -> sanitize s = s.
Proof.
  unfold sanitize. induction s as [|c s IH]; cbn [all_chars smap]; [reflexivity|]. intros E.
  apply andb_true_iff in E as [E1 E2]. rewrite (IH E2). f_equal.
  destruct c as [[] [] [] [] [] [] [] []]; try reflexivity; vm_compute in E1; discriminate.
Qed.

Lemma plain_plus c : plain_char c = true -> plain_or_us c = true.
Proof. unfold plain_or_us. intros ->. reflexivity. Qed.

Lemma plain_not_us c : plain_char c = true -> c <> "_"%char.
Proof. intros H ->. vm_compute in H. discriminate. Qed.

(** Splitting at the first underscore. *)
Lemma split_us a a' r r' :
  all_chars plain_char a = true -> all_chars plain_char a' = true ->
  (a ++ "_" ++ r = a' ++ "_" ++ r')%string -> a = a' /\ r = r'.
Proof.
  revert a'; induction a as [|c a IH]; intros [|c' a'] H H' E; cbn in *.
  - inversion E; auto.
  - inversion E; subst. apply andb_true_iff in H' as [H' _]. apply plain_not_us in H'. congruence.
  - inversion E; subst. apply andb_true_iff in H as [H _]. apply plain_not_us in H. congruence.
  - apply andb_true_iff in H as [H1 H2]. apply andb_true_iff in H' as [H1' H2'].
    inversion E; subst. destruct (IH a' H2 H2' H3); subst; auto.
Qed.

Lemma no_us_tail a r a' :
  all_chars plain_char a' = true -> (a ++ "_" ++ r = a')%string -> False.
Proof.
  revert a'; induction a as [|c a IH]; intros a' H E; subst a'; cbn in H.
  - discriminate.
  - apply andb_true_iff in H as [_ H]. eapply IH; eauto.
Qed.

(** ** Names by identity *)

Definition name_of (i : vid) : string := sanitize (join_us (fst i :: map str (snd i))).

Lemma v_name_id v : v_name v = name_of (v_id v).
Proof. reflexivity. Qed.

(** ** Shape of the order variables *)

Definition known_station (ts : train_sets) (s : pv) : Prop := In s (PNone :: mentioned_stations ts).

Definition order_shape (ts : train_sets) (q : list pv) (v : lpvar) : Prop :=
  exists j jp, In j (mentioned_trains ts) /\ In jp (mentioned_trains ts) /\
    ((exists s, known_station ts s /\ q = [j; jp; one_station; s] /\ v = y_var q) \/
     (exists s, known_station ts s /\ q = [in_; j; jp; s] /\ v = z_var q) \/
     (exists s sp, known_station ts s /\ known_station ts sp /\ q = [j; jp; s; sp] /\ v = z_var q)).

Definition shaped (ts : train_sets) (y : tree) : Prop :=
  udepth 4 y /\ forall q v, tpath q y = Some v -> order_shape ts q v.

Lemma update_shaped ts y p v y' :
  shaped ts y -> List.length p = 4%nat -> order_shape ts p v ->
  update_dictofdicts y (single p v) = Ok y' -> shaped ts y'.
Proof.
  intros [Hd HS] Hl Hp H. destruct (tpath p y) as [w|] eqn:E.
  - rewrite (update_single_old p v y w E) in H. discriminate.
  - rewrite <- Hl in Hd.
    destruct (update_single_new p v y Hd E) as (t & Hu & Hd' & Ht).
    rewrite H in Hu; inversion Hu; subst t. rewrite Hl in Hd'. split; [exact Hd'|].
    intros q w Hq. pose proof (tpath_length _ _ _ _ Hd' Hq) as Lq.
    rewrite Ht in Hq by congruence. destruct (eq_dec q p); [|eauto]. inversion Hq; subst. exact Hp.
Qed.

Section Shape.
  Variable ts : train_sets.

  Lemma y3_shaped y j jp s y' :
    shaped ts y -> In j (mentioned_trains ts) -> In jp (mentioned_trains ts) -> known_station ts s ->
    update_y3 y j jp s = Ok y' -> shaped ts y'.
  Proof.
    intros Hy H1 H2 H3 H. unfold update_y3 in H. destruct (_ || _); [inversion H; subst; exact Hy|].
    eapply update_shaped; [exact Hy| | |exact H]; [reflexivity|]. exists j, jp. eauto 8.
  Qed.

  Lemma y4_shaped y j jp s sp y' :
    shaped ts y -> In j (mentioned_trains ts) -> In jp (mentioned_trains ts) ->
    known_station ts s -> known_station ts sp ->
    update_y4 y j jp s sp = Ok y' -> shaped ts y'.
  Proof.
    intros Hy H1 H2 H3 H4 H. unfold update_y4 in H. destruct (_ || _); [inversion H; subst; exact Hy|].
    eapply update_shaped; [exact Hy| | |exact H]; [reflexivity|]. exists j, jp. eauto 12.
  Qed.

  Lemma y4in_shaped y j jp s y' :
    shaped ts y -> In j (mentioned_trains ts) -> In jp (mentioned_trains ts) -> known_station ts s ->
    update_y4_in y in_ j jp s = Ok y' -> shaped ts y'.
  Proof.
    intros Hy H1 H2 H3 H. unfold update_y4_in in H. destruct (_ || _); [inversion H; subst; exact Hy|].
    eapply update_shaped; [exact Hy| | |exact H]; [reflexivity|]. exists j, jp. eauto 12.
  Qed.

  Lemma known_departure s l pair j sp :
    In (s, l) (ts_Jswitch ts) -> In pair l -> In j (dkeys pair) ->
    departure_station4switches s j pair ts = Ok sp -> known_station ts sp.
  Proof.
    intros H1 H2 H3 H. unfold departure_station4switches in H. inv_bind H.
    destruct (eqb a (PStr "out")).
    - inversion H; subst. right. eapply mention_switch; eauto.
    - destruct (eqb a (PStr "in")); [|inversion H; left; reflexivity].
      inv_bind H. apply dlookup_ok in E0. apply previous_station_in in H as [_ [->|H]]; [left; reflexivity|].
      right. eapply mention_path; eauto.
  Qed.

  Theorem order_variables_shaped y : order_variables ts = Ok y -> shaped ts y.
  Proof.
    unfold order_variables. intros H. inv_bind H.
    assert (S1 : shaped ts a).
    { refine (foldM_inv (shaped ts) _ _ _ _ _ _ E).
      - split; [constructor|]. intros [|k p] v; discriminate.
      - intros acc [k l] acc' Hin Ha Hf. refine (foldM_inv (shaped ts) _ _ _ _ Ha _ Hf).
        intros acc1 [j jp] acc1' Hin1 Ha1 Hf1. cbn [fst snd] in *.
        destruct (mention_single ts k l j jp Hin Hin1) as (M1 & M2 & M3 & M4).
        refine (y4_shaped _ _ _ _ _ _ Ha1 M1 M2 _ _ Hf1); right; auto. }
    inv_bind H. rename a0 into y2.
    assert (S2 : shaped ts y2).
    { refine (foldM_inv (shaped ts) _ _ _ _ S1 _ E0). intros a1 [s inner] a1' Hin Ha Hf.
      refine (foldM_inv (shaped ts) _ _ _ _ Ha _ Hf). intros a2 [sp groups] a2' Hin2 Ha2 Hf2.
      refine (foldM_inv (shaped ts) _ _ _ _ Ha2 _ Hf2). intros a3 js a3' Hin3 Ha3 Hf3.
      refine (foldM_inv (shaped ts) _ _ _ _ Ha3 _ Hf3). intros a4 [j jp] a4' Hin4 Ha4 Hf4.
      cbn [fst snd] in *. apply combinations2_mem in Hin4 as [I1 I2].
      destruct (mention_jd ts s inner sp groups js j Hin Hin2 Hin3 I1) as (M1 & M2 & _).
      destruct (mention_jd ts s inner sp groups js jp Hin Hin2 Hin3 I2) as (M3 & _).
      refine (y3_shaped _ _ _ _ _ Ha4 M1 M3 _ Hf4); right; auto. }
    inv_bind H. rename a0 into y3.
    assert (S3 : shaped ts y3).
    { refine (foldM_inv (shaped ts) _ _ _ _ S2 _ E1). intros a2 [s groups] a2' Hin2 Ha2 Hf2.
      refine (foldM_inv (shaped ts) _ _ _ _ Ha2 _ Hf2). intros a3 js a3' Hin3 Ha3 Hf3.
      refine (foldM_inv (shaped ts) _ _ _ _ Ha3 _ Hf3). intros a4 [j jp] a4' Hin4 Ha4 Hf4.
      cbn [fst snd] in *. apply combinations2_mem in Hin4 as [I1 I2].
      destruct (mention_track ts s groups js j Hin2 Hin3 I1) as (M1 & M2).
      destruct (mention_track ts s groups js jp Hin2 Hin3 I2) as (M3 & _).
      refine (y3_shaped _ _ _ _ _ Ha4 M1 M3 _ Hf4); right; auto. }
    refine (foldM_inv (shaped ts) _ _ _ _ S3 _ H). intros a2 [s l] a2' Hin2 Ha2 Hf2.
    refine (foldM_inv (shaped ts) _ _ _ _ Ha2 _ Hf2). intros a3 pair a3' Hin3 Ha3 Hf3.
    cbn [fst snd] in *. unfold order_var4switch_pair in Hf3.
    inv_bind Hf3. destruct a0 as [jp jpp]. inv_bind Hf3. inv_bind Hf3. rename a0 into sp, a1 into spp.
    destruct (unpack2_keys _ _ _ E2) as [K1 K2].
    destruct (mention_switch ts s l pair jp Hin2 Hin3 K1) as [M1 M2].
    destruct (mention_switch ts s l pair jpp Hin2 Hin3 K2) as [M3 _].
    assert (Ks : known_station ts s) by (right; exact M2).
    assert (K3 : known_station ts sp) by (eapply known_departure; [exact Hin2|exact Hin3|exact K1|eauto]).
    assert (K4 : known_station ts spp) by (eapply known_departure; [exact Hin2|exact Hin3|exact K2|eauto]).
    destruct (eqb sp spp).
    - destruct (eqb sp s); [exact (y3_shaped _ _ _ _ _ Ha3 M1 M3 K3 Hf3)|]. inv_bind Hf3.
      destruct a0; [exact (y4in_shaped _ _ _ _ _ Ha3 M1 M3 Ks Hf3)|exact (y3_shaped _ _ _ _ _ Ha3 M1 M3 K3 Hf3)].
    - destruct (_ || _); [exact (y4_shaped _ _ _ _ _ _ Ha3 M1 M3 K3 K4 Hf3)|exact (y4in_shaped _ _ _ _ _ Ha3 M1 M3 Ks Hf3)].
  Qed.
End Shape.

(** ** Identities occurring in a problem *)

Lemma aff_vars_id a i : In i (aff_ids a) -> exists v, In v (aff_vars a) /\ v_id v = i.
Proof. unfold aff_ids. intros H. apply in_map_iff in H as (v & ? & ?). eauto. Qed.

Lemma reading_id y a i : reading y a -> In i (aff_ids a) -> exists q v, tpath q y = Some v /\ i = v_id v.
Proof.
  intros (q & v & Hq & [->| ->]) Hi; [apply aff_var_ids in Hi|apply one_minus_ids in Hi]; eauto.
Qed.

Definition known_id (ts : train_sets) (i : vid) : Prop :=
  (exists j s, has_delay ts j s /\ i = delay_id (j, s)) \/
  (exists q v, order_shape ts q v /\ i = v_id v).

Lemma problem_ids ts tt d cat p :
  reserved_free ts -> create_linear_problem ts tt d cat = Ok p ->
  forall v, In v (variables p) -> known_id ts (v_id v) /\
    forall j s, v_id v = delay_id (j, s) -> v = delay_var_of j s d cat.
Proof.
  intros RF Hp v Hv.
  assert (HC : canon ts d cat v).
  { destruct (create_inv _ _ _ _ _ Hp) as (dv & y & H1 & H2 & H3 & _ & _ & H5).
    eapply variables_canon; eauto. }
  split.
  - destruct HC as [(j & s & HD & ->)|(q & Hq)]; [left; exists j, s; split; auto|].
    right. destruct (built_calls _ _ _ _ _ Hp) as (dv & y & A1 & A2 & A3 & A4 & A5).
    assert (HS := order_variables_shaped ts y A2).
    assert (Hi : In (v_id v) (map v_id (variables p))) by (apply in_map; exact Hv).
    assert (NB : forall a, v_id v = delay_id a -> False).
    { intros [a b] E. destruct Hq; subst v; discriminate E. }
    assert (G : exists q v', tpath q y = Some v' /\ v_id v = v_id v').
    { apply variables_ids in Hi as [Hi|(n & c & Hc & Hi)].
      - apply (obj_closed _ _ _ _ _ A1) in A3 as (_ & A3 & _). apply A3 in Hi as [[]|(js & _ & _ & E)].
        exfalso; eapply NB; eauto.
      - destruct (A5 _ Hc) as (k & m0 & Hk & E & _). cbn [snd] in E.
        destruct (realise ts tt d cat dv y A1 _ _ Hk E) as (r & R1 & R2).
        inversion R2 as [|L R a b yv Hle|L R a b yv m e Hlt Hs Hev Hid|L R a b m e Hs Hev Hid|e m]; subst.
        + apply Hid in Hi as [(pq & _ & X)|[X|X]]; [exfalso; eapply NB; eauto|exfalso; eapply NB; eauto|].
          apply rule_reading in R1 as [R1| ->]; [eapply reading_id; eauto|destruct X].
        + apply Hid in Hi as [X|X]; exfalso; eapply NB; eauto.
        + apply rule_same in R1 as (a & b & -> & Ra & Rb). cbn [c_aff mk_eq] in Hi.
          apply aff_sub_ids in Hi as [Hi|Hi];
            [exact (reading_id _ _ _ Ra Hi)|exact (reading_id _ _ _ Rb Hi)]. }
    destruct G as (q' & v' & Hq' & E). exists q', v'. split; [apply HS; exact Hq'|exact E].
  - intros j s E. destruct HC as [(a & b & HD & ->)|(q & [->| ->])]; try discriminate E.
    inversion E; subst. reflexivity.
Qed.

(** ** Names identify *)

Section Plain.
  Variable ts : train_sets.
  Hypothesis RF : reserved_free ts.
  Hypothesis PN : plain_names ts.

  Lemma delay_mentioned j s : has_delay ts j s -> In j (mentioned_trains ts) /\ In s (mentioned_stations ts).
  Proof.
    intros (H1 & path & H2 & H3 & _). split.
    - unfold mentioned_trains. apply in_app_iff. auto.
    - eapply mention_path; eauto.
  Qed.

  Lemma train_plain j : In j (mentioned_trains ts) -> all_chars plain_char (str j) = true.
  Proof. apply PN. Qed.

  Lemma station_plain s : known_station ts s -> all_chars plain_char (str s) = true.
  Proof. intros [<-|H]; [reflexivity|]. apply PN. exact H. Qed.

  Lemma plain_us s : all_chars plain_char s = true -> all_chars plain_or_us s = true.
  Proof. apply all_chars_imp. apply plain_plus. Qed.

  (** The name before PuLP replaces characters. *)
  Definition raw (i : vid) : string := join_us (fst i :: map str (snd i)).

  Lemma name_raw i : known_id ts i -> name_of i = raw i.
  Proof.
    intros H. unfold name_of, raw. apply sanitize_fixed.
    destruct H as [(j & s & HD & ->)|(q & v & HS & ->)].
    - apply delay_mentioned in HD as [H1 H2]. cbn [fst snd map join_us delay_id].
      rewrite !all_chars_app. rewrite (plain_us _ (train_plain _ H1)).
      rewrite (plain_us (str s)) by (apply station_plain; right; auto). reflexivity.
    - destruct HS as (j & jp & H1 & H2 & [(s & H3 & -> & ->)|[(s & H3 & -> & ->)|(s & sp & H3 & H4 & -> & ->)]]);
        cbn [fst snd map join_us v_id v_prefix v_index y_var z_var str one_station in_];
        rewrite !all_chars_app, !(plain_us (str j)), !(plain_us (str jp)), !(plain_us (str s))
          by auto using train_plain, station_plain; try reflexivity.
      rewrite (plain_us (str sp)) by auto using station_plain. reflexivity.
  Qed.

  Lemma train_str j k : In j (mentioned_trains ts) -> In k (mentioned_trains ts) -> str j = str k -> j = k.
  Proof. apply PN. Qed.
  Lemma station_str j k : known_station ts j -> known_station ts k -> str j = str k -> j = k.
  Proof. apply PN. Qed.

  Lemma in_not_train j : In j (mentioned_trains ts) -> str j <> "in".
  Proof.
    intros H E. destruct (proj1 RF j H) as (_ & N & _). destruct j as [|z|t]; cbn in E; try discriminate.
    - unfold str_of_Z in E. apply (f_equal NilZero.int_of_string) in E.
      destruct (Z.to_int z) as [[]|[]]; try (rewrite NilZero.isi in E by discriminate); discriminate E.
    - apply N. cbn in E. congruence.
  Qed.

  Lemma app_inv_head_str a r r' : (a ++ r = a ++ r')%string -> r = r'.
  Proof. induction a as [|c a IH]; cbn; auto. intros E; inversion E; auto. Qed.

  Lemma raw_inj i i' : known_id ts i -> known_id ts i' -> raw i = raw i' -> i = i'.
  Proof.
    assert (TP := train_plain). assert (SP := station_plain). assert (TS := train_str).
    assert (SS := station_str). assert (NI := in_not_train).
    intros [(j & s & HD & ->)|(q & v & HS & ->)] [(k & t & HD' & ->)|(q' & v' & HS' & ->)] E.
    - apply delay_mentioned in HD as [H1 H2]. apply delay_mentioned in HD' as [H1' H2'].
      unfold raw, delay_id in *. cbn [fst snd map join_us] in E.
      apply app_inv_head_str, app_inv_head_str, split_us in E as [E1 E2]; auto.
      apply TS in E1; auto. apply SS in E2; [|right; auto..]. subst. reflexivity.
    - destruct HS' as (a & b & _ & _ & [(c & _ & -> & ->)|[(c & _ & -> & ->)|(c & e & _ & _ & -> & ->)]]);
        discriminate E.
    - destruct HS as (a & b & _ & _ & [(c & _ & -> & ->)|[(c & _ & -> & ->)|(c & e & _ & _ & -> & ->)]]);
        discriminate E.
    - destruct HS as (j & jp & H1 & H2 & [(s & H3 & -> & ->)|[(s & H3 & -> & ->)|(s & sp & H3 & H4 & -> & ->)]]);
      destruct HS' as (k & kp & G1 & G2 & [(t & G3 & -> & ->)|[(t & G3 & -> & ->)|(t & tp & G3 & G4 & -> & ->)]]);
        try discriminate E; unfold raw in E;
        cbn [fst snd map join_us v_id v_prefix v_index y_var z_var] in *;
        apply app_inv_head_str, app_inv_head_str in E.
      + apply split_us in E as [E1 E]; auto. apply split_us in E as [E2 E]; auto.
        apply app_inv_head_str, app_inv_head_str in E.
        apply TS in E1; auto. apply TS in E2; auto. apply SS in E; auto. subst. reflexivity.
      + apply app_inv_head_str, app_inv_head_str in E.
        apply split_us in E as [E1 E]; auto. apply split_us in E as [E2 E]; auto.
        apply TS in E1; auto. apply TS in E2; auto. apply SS in E; auto. subst. reflexivity.
      + apply split_us in E as [E1 E]; auto. exfalso. exact (NI k G1 (eq_sym E1)).
      + apply split_us in E as [E1 E]; auto. exfalso. exact (NI j H1 E1).
      + apply split_us in E as [E1 E]; auto. apply split_us in E as [E2 E]; auto.
        apply split_us in E as [E3 E]; auto.
        apply TS in E1; auto. apply TS in E2; auto. apply SS in E; auto. apply SS in E3; auto. subst. reflexivity.
  Qed.

  Lemma name_inj i i' : known_id ts i -> known_id ts i' -> name_of i = name_of i' -> i = i'.
  Proof. intros H H' E. rewrite !name_raw in E by assumption. apply raw_inj; assumption. Qed.

  Lemma delay_name j s : has_delay ts j s ->
    name_of (delay_id (j, s)) = ("Delays_" ++ str j ++ "_" ++ str s)%string.
  Proof. intros H. rewrite name_raw by (left; eauto). reflexivity. Qed.
End Plain.

(** ** A variable is found by its name *)

Lemma add_vars_nodup new : forall acc, NoDup (map v_id acc) -> NoDup (map v_id (add_vars new acc)).
Proof.
  induction new as [|v new IH]; intros acc H; cbn [add_vars]; auto. apply IH.
  destruct (vmem (v_id v) acc) eqn:E; auto. rewrite map_app. apply NoDup_app_snoc; auto.
  unfold vmem in E. apply lmem_false in E. exact E.
Qed.

Lemma variables_nodup p : NoDup (map v_id (variables p)).
Proof.
  unfold variables.
  assert (G : forall cs acc, NoDup (map v_id acc) -> NoDup (map v_id (fold_left
     (fun acc (nc : string * constr) => add_vars (aff_vars (c_aff (snd nc))) acc) cs acc))).
  { induction cs as [|nc cs IH]; intros acc H; cbn [fold_left]; auto. apply IH, add_vars_nodup, H. }
  apply G, add_vars_nodup. constructor.
Qed.

Section Find.
  Variables (ts : train_sets) (tt : timetable) (d : Q) (cat : vcat) (p : lpproblem).
  Hypothesis RF : reserved_free ts.
  Hypothesis PN : plain_names ts.
  Hypothesis Hp : create_linear_problem ts tt d cat = Ok p.

  Theorem names_differ v w : In v (variables p) -> In w (variables p) -> v_name v = v_name w -> v = w.
  Proof.
    intros Hv Hw E. rewrite !v_name_id in E.
    destruct (problem_ids _ _ _ _ _ RF Hp v Hv) as [K1 _].
    destruct (problem_ids _ _ _ _ _ RF Hp w Hw) as [K2 _].
    apply (name_inj ts RF PN) in E; auto.
    assert (ND := variables_nodup p). clear K1 K2.
    induction (variables p) as [|u l IH]; [destruct Hv|]. cbn [map] in ND. inversion ND; subst.
    destruct Hv as [->|Hv], Hw as [->|Hw]; auto.
    - exfalso. apply H1. rewrite E. apply in_map. exact Hw.
    - exfalso. apply H1. rewrite <- E. apply in_map. exact Hv.
  Qed.

  (** Searching "Delays_j_s" finds exactly the delay variable of [j] at [s], if it occurs. *)
  Theorem find_delay j s : In j (mentioned_trains ts) -> In s (mentioned_stations ts) ->
    find_var ("Delays_" ++ str j ++ "_" ++ str s) (variables p) =
    if lmem (delay_id (j, s)) (map v_id (variables p)) then Some (delay_var_of j s d cat) else None.
  Proof.
    intros Mj Ms. unfold find_var. destruct (find _ _) as [v|] eqn:F.
    - apply find_some in F as [Hv E]. apply eqb_eq in E. rewrite v_name_id in E.
      destruct (problem_ids _ _ _ _ _ RF Hp v Hv) as [K V].
      assert (EI : v_id v = delay_id (j, s)).
      { destruct K as [(k & t & HD & EK)|(q & u & HS & EK)].
        - destruct (delay_mentioned ts k t HD) as [Mk Mt]. rewrite EK, (delay_name ts PN k t HD) in E.
          apply (app_inv_head_str "Delays_") in E. apply split_us in E as [E1 E2];
            [|exact (train_plain ts PN k Mk)|exact (train_plain ts PN j Mj)].
          apply (train_str ts PN) in E1; [|exact Mk|exact Mj].
          apply (station_str ts PN) in E2; [|right; auto..]. subst. exact EK.
        - exfalso. rewrite (name_raw ts PN) in E by (right; eauto). rewrite EK in E.
          destruct HS as (a & b & _ & _ & [(c & _ & -> & ->)|[(c & _ & -> & ->)|(c & e & _ & _ & -> & ->)]]);
            discriminate E. }
      rewrite (V j s EI). assert (M : In (delay_id (j, s)) (map v_id (variables p))).
      { rewrite <- EI. apply in_map. exact Hv. }
      apply lmem_true in M. rewrite M. reflexivity.
    - destruct (lmem _ _) eqn:M; [|reflexivity]. exfalso. apply lmem_true in M.
      apply in_map_iff in M as (v & EI & Hv). apply (find_none _ _ F) in Hv as HN.
      apply eqb_neq in HN. apply HN. rewrite v_name_id, EI.
      destruct (problem_ids _ _ _ _ _ RF Hp v Hv) as [K _]. rewrite EI in K.
      rewrite (name_raw ts PN) by assumption. reflexivity.
  Qed.
End Find.
