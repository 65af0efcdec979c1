(** * Builds: well-formed input never fails (C17) *)

From Coq Require Import List String Ascii ZArith QArith Bool Arith Lia Lqa.
From Verif Require Import Base Pulp Helpers LinearSolver BaseFacts Spec SpecNames SpecTimes SpecBuild
  TreeFacts OrderVars Emit DelayVars Shapes Origin SpecFacts HelperFacts Rules Names.
Import ListNotations.
Open Scope string_scope.
Open Scope list_scope.

Lemma not_last {A} (l1 l2 l : list A) s sp :
  NoDup (l1 ++ s :: sp :: l2) -> l1 ++ s :: sp :: l2 = l ++ [s] -> False.
Proof.
  intros ND E.
  assert (G : forall m : list A, m <> [] -> l1 ++ s :: m = l ++ [s] -> In s m).
  { intros m. induction m as [|z m _] using rev_ind; [congruence|]. intros _ H.
    change (s :: m ++ [z]) with ((s :: m) ++ [z]) in H. rewrite app_assoc in H.
    apply app_inj_tail in H as [_ ->]. apply in_app_iff. cbn. auto. }
  assert (I : In s (sp :: l2)) by (apply G; [discriminate|exact E]).
  apply NoDup_remove_2 in ND. apply ND. apply in_app_iff. auto.
Qed.

Lemma nodup_before ts j l1 sp s l2 :
  NoDup (l1 ++ sp :: s :: l2) -> dget j (ts_Paths ts) = Some (l1 ++ sp :: s :: l2) -> comes_before ts j sp s.
Proof.
  intros ND H. exists (l1 ++ sp :: s :: l2), l1, l2. split; [exact H|]. split; [reflexivity|].
  replace (l1 ++ sp :: s :: l2) with ((l1 ++ [sp]) ++ s :: l2) in ND by (rewrite <- app_assoc; reflexivity).
  apply NoDup_remove_2 in ND. intros I. apply ND. apply in_app_iff. auto.
Qed.

Lemma listed_asym {A} (l : list A) a b : NoDup l -> listed l a b -> listed l b a -> False.
Proof.
  intros ND H1 H2. apply listed_combinations in H1, H2. revert ND H1 H2.
  induction l as [|x l IH]; cbn [combinations2]; [tauto|]. intros ND H1 H2. inversion ND; subst.
  apply in_app_iff in H1, H2.
  assert (C : forall u v, In (u, v) (map (fun z => (x, z)) l) -> u = x /\ In v l).
  { intros u v I. apply in_map_iff in I as (z & E & I). inversion E; subst. auto. }
  destruct H1 as [H1|H1], H2 as [H2|H2]; auto.
  - apply C in H1 as [-> H1]. apply C in H2 as [-> H2]. contradiction.
  - apply C in H1 as [-> H1]. apply combinations2_mem in H2 as [_ H2]. contradiction.
  - apply C in H2 as [-> H2]. apply combinations2_mem in H1 as [_ H1]. contradiction.
Qed.

Lemma listed_neq {A} (l : list A) a b : NoDup l -> listed l a b -> a <> b.
Proof. intros ND H ->. eapply listed_asym; eauto. Qed.

Lemma listed_in {A} (l : list A) a b : listed l a b -> In a l /\ In b l.
Proof. intros H. apply listed_combinations in H. apply combinations2_mem in H. exact H. Qed.

Lemma both_listed {A} (l : list A) a b : In a l -> In b l -> a <> b -> listed l a b \/ listed l b a.
Proof.
  intros Ha Hb N. apply in_split in Ha as (l1 & l2 & ->). apply in_app_iff in Hb as [Hb|[Hb|Hb]].
  - right. apply in_split in Hb as (m1 & m2 & ->). exists m1, m2, l2. rewrite <- app_assoc. reflexivity.
  - congruence.
  - left. apply in_split in Hb as (m1 & m2 & ->). exists l1, m1, m2. reflexivity.
Qed.

Lemma nodup_app {A} (l m : list A) : NoDup l -> NoDup m -> (forall a, In a l -> ~ In a m) -> NoDup (l ++ m).
Proof.
  induction l as [|x l IH]; cbn; intros H1 H2 H3; [exact H2|]. inversion H1; subst. constructor.
  - intros H. apply in_app_iff in H as [H|H]; [contradiction|]. exact (H3 x (or_introl eq_refl) H).
  - apply IH; auto.
Qed.

Lemma str_contains_self s : str_contains s s = true.
Proof.
  assert (P : String.prefix s s = true) by (induction s as [|c s IH]; cbn; [reflexivity|];
    destruct (ascii_dec c c); [exact IH|congruence]).
  destruct s as [|c s]; [reflexivity|]. cbn in *. destruct (ascii_dec c c); [|congruence].
  rewrite P. reflexivity.
Qed.

Section Wf.
  Variables (ts : train_sets) (tt : timetable) (d_max : Q) (cat : vcat).
  Hypothesis WF : well_formed ts tt d_max.

  Let RF := wf_reserved _ _ _ WF.
  Notation edt := (earliest_dep_time (ts_Paths ts) tt).

  (** ** Times *)

  Lemma path_known j path : dget j (ts_Paths ts) = Some path -> In j (ts_J ts) /\ NoDup path.
  Proof.
    intros H. assert (J : In j (ts_J ts)).
    { apply (wf_known _ _ _ WF). unfold mentioned_trains. rewrite !in_app_iff. right. left.
      apply dmem_true. unfold dmem. rewrite H. reflexivity. }
    split; [exact J|]. destruct (wf_paths _ _ _ WF j J) as (p & H' & ND). congruence.
  Qed.

  Lemma end_not_decided_only j s sp : comes_before ts j s sp -> ~ ends_here ts j s.
  Proof.
    intros (path & l1 & l2 & Hp & -> & _) (l & Hl). rewrite Hp in Hl. inversion Hl.
    eapply not_last; [|eassumption]. apply (path_known _ _ Hp).
  Qed.

  Lemma round_of s j jn : continues_as ts s j jn -> exists l, In (s, l) (ts_Jround ts) /\ In (j, jn) l.
  Proof.
    intros (l1 & l2 & H & _). apply dget_in in H. eexists; split; [exact H|]. apply in_app_iff. cbn. auto.
  Qed.

  Lemma taken_of s jr j : taken_from ts s jr j -> exists l, In (s, l) (ts_Jround ts) /\ In (jr, j) l.
  Proof.
    intros (l1 & l2 & H & _). apply dget_in in H. eexists; split; [exact H|]. apply in_app_iff. cbn. auto.
  Qed.

  Lemma before_decided j s sp : comes_before ts j s sp -> decided ts j s.
  Proof.
    intros C. assert (NE := end_not_decided_only _ _ _ C).
    destruct C as (path & l1 & l2 & Hp & -> & _). destruct (path_known _ _ Hp) as [J ND].
    assert (OP : on_path ts j s) by (eexists; split; [exact Hp|]; apply in_app_iff; cbn; auto).
    split; [exact J|]. split; [exact OP|]. split.
    - intros S1. apply NE. apply (wf_skip _ _ _ WF); auto.
    - intros (jn & Cn). apply round_of in Cn as (l & H1 & H2).
      destruct (wf_round _ _ _ WF _ _ H1) as [_ H]. apply NE. apply (H _ _ H2).
  Qed.

  Lemma earliest_exists j : forall l1 s l2,
    dget j (ts_Paths ts) = Some (l1 ++ s :: l2) -> l1 = [] \/ decided ts j s -> exists e, earliest ts tt j s e.
  Proof.
    induction l1 as [|sp l1 IH] using rev_ind; intros s l2 Hp D.
    - destruct (wf_start _ _ _ WF j s) as (q & Hq); [exists l2; exact Hp|].
      eexists. eapply earliest_init; [exact Hq|apply max_opt_spec].
    - destruct D as [D|D]; [destruct l1; discriminate|]. rewrite <- app_assoc in Hp. cbn [app] in Hp.
      destruct (path_known _ _ Hp) as [J ND].
      assert (C := nodup_before _ _ _ _ _ _ ND Hp).
      destruct (IH sp (s :: l2) Hp (or_intror (before_decided _ _ _ C))) as (e0 & E0).
      destruct (wf_run _ _ _ WF _ _ _ C) as (r & Hr). destruct (wf_stop _ _ _ WF _ _ _ C D) as (q & Hq).
      destruct (dget (joined [j; s]) (tt_init tt)) as [i|] eqn:Ei.
      + eexists. eapply earliest_init; [exact Ei|apply max_opt_spec].
      + eexists. eapply earliest_next; [|exact C|exact E0|exact Hr|exact Hq|apply max_opt_spec].
        intros i Hi. unfold initially in Hi. congruence.
  Qed.

  Lemma edt_decided j s : decided ts j s -> exists e, edt j s = Ok e.
  Proof.
    intros D0. destruct D0 as (J & (path & Hp & Hs) & D) eqn:ED; clear ED. apply in_split in Hs as (l1 & l2 & ->).
    destruct (earliest_exists j l1 s l2 Hp (or_intror D0)) as (e & He).
    apply earliest_dep_time_complete in He as (e' & H & _). eauto.
  Qed.

  Lemma edt_start j s : starts_at ts j s -> exists e, edt j s = Ok e.
  Proof.
    intros (l & H). destruct (earliest_exists j [] s l H (or_introl eq_refl)) as (e & He).
    apply earliest_dep_time_complete in He as (e' & E & _). eauto.
  Qed.

  Lemma run_ok j sp s : comes_before ts j sp s -> exists r, tau_pass tt j sp s = Ok r.
  Proof. intros C. destruct (wf_run _ _ _ WF _ _ _ C) as (r & H). exists r. apply dlookup_ok. exact H. Qed.

  Lemma stop_ok j sp s : comes_before ts j sp s -> decided ts j s -> exists r, tau_stop tt j s = Ok r.
  Proof. intros C D. destruct (wf_stop _ _ _ WF _ _ _ C D) as (r & H). exists r. apply dlookup_ok. exact H. Qed.

  Lemma res_ok : exists r, tau_res tt = Ok r.
  Proof. destruct (wf_reservation _ _ _ WF) as (r & H). exists r. unfold tau_res. rewrite H. reflexivity. Qed.

  Lemma before_lookup j sp s : comes_before ts j sp s ->
    exists path, dlookup j (ts_Paths ts) = Ok path /\ previous_station path s = Ok sp.
  Proof.
    intros C. apply comes_before_prev in C as (path & H1 & H2 & _). exists path. split; [|exact H2].
    apply dlookup_ok. exact H1.
  Qed.

  (** ** Delay variables *)

  Lemma delay_pairs_nodup : NoDup (delay_pairs ts).
  Proof.
    unfold delay_pairs. assert (G : forall l, NoDup l -> (forall j, In j l -> In j (ts_J ts)) ->
      NoDup (flat_map (fun j => pairs_of ts j (DelayVars.path_of ts j)) l)).
    { induction l as [|j l IH]; intros ND Hl; cbn [flat_map]; [constructor|]. inversion ND; subst.
      apply nodup_app; [|apply IH; auto; intros; apply Hl; cbn; auto|].
      - unfold pairs_of. destruct (wf_paths _ _ _ WF j (Hl j (or_introl eq_refl))) as (p & Hp & NP).
        unfold DelayVars.path_of. rewrite Hp. apply FinFun.Injective_map_NoDup; [intros a b E; congruence|].
        apply NoDup_filter. exact NP.
      - intros [a b] I1 I2. unfold pairs_of in I1. apply in_map_iff in I1 as (s & E & _). inversion E; subst.
        apply in_flat_map in I2 as (k & Hk & I2). unfold pairs_of in I2. apply in_map_iff in I2 as (s & E2 & _).
        inversion E2; subst. contradiction. }
    apply G; [apply (wf_trains _ _ _ WF)|auto].
  Qed.

  Lemma delays_built : exists dv, delay_varibles ts d_max cat = Ok dv.
  Proof.
    apply delay_varibles_total; [|apply delay_pairs_nodup].
    intros j J. destruct (wf_paths _ _ _ WF j J) as (p & H & _). eauto.
  Qed.

  (** ** Order variables *)

  (** The store, with one-station decisions written in the order of [J]. *)
  Definition oriented (y : tree) : Prop :=
    store_ok y /\ forall j k s, present y [j; k; one_station; s] -> listed (ts_J ts) j k.

  Lemma step_new y p v y' q :
    store_ok y -> List.length p = 4%nat -> update_dictofdicts y (single p v) = Ok y' ->
    present y' q -> List.length q = 4%nat -> q = p \/ present y q.
  Proof.
    intros SY L H (w & Hw) Lq. destruct (tpath p y) as [u|] eqn:E.
    - rewrite (update_single_old p v y u E) in H. discriminate.
    - assert (Hd := so_depth _ SY). rewrite <- L in Hd.
      destruct (update_single_new p v y Hd E) as (t & Hu & _ & Ht). rewrite H in Hu. inversion Hu; subst t.
      rewrite Ht in Hw by congruence. destruct (eq_dec q p); [auto|]. right. exists w. exact Hw.
  Qed.

  Lemma y3_built y j k s : oriented y -> train_name_ok j -> train_name_ok k -> listed (ts_J ts) j k ->
    exists y', update_y3 y j k s = Ok y' /\ oriented y'.
  Proof.
    intros [SY O] Nj Nk L. destruct (update_y3_ok y j k s SY Nj Nk) as (y' & H & SY' & _).
    exists y'. split; [exact H|]. split; [exact SY'|]. intros a b c P. unfold update_y3 in H.
    destruct (_ || _); [inversion H; subst; eauto|].
    destruct (step_new _ [j; k; one_station; s] _ _ _ SY eq_refl H P eq_refl) as [P'|P']; [|eauto]. inversion P'; subst. exact L.
  Qed.

  Lemma y4_built y j k s sp : oriented y -> train_name_ok j -> train_name_ok k ->
    station_name_ok s -> station_name_ok sp -> exists y', update_y4 y j k s sp = Ok y' /\ oriented y'.
  Proof.
    intros [SY O] Nj Nk Ns Nsp. destruct (update_y4_ok y j k s sp SY Nj Nk Ns Nsp) as (y' & H & SY' & _).
    exists y'. split; [exact H|]. split; [exact SY'|]. intros a b c P. unfold update_y4 in H.
    destruct (_ || _); [inversion H; subst; eauto|].
    destruct (step_new _ [j; k; s; sp] _ _ _ SY eq_refl H P eq_refl) as [P'|P']; [|eauto]. inversion P'; subst.
    exfalso. apply Ns. reflexivity.
  Qed.

  Lemma y4in_built y j k s : oriented y -> train_name_ok j -> train_name_ok k ->
    exists y', update_y4_in y in_ j k s = Ok y' /\ oriented y'.
  Proof.
    intros [SY O] Nj Nk. destruct (update_y4_in_ok y j k s SY Nj Nk) as (y' & H & SY' & _).
    exists y'. split; [exact H|]. split; [exact SY'|]. intros a b c P. unfold update_y4_in in H.
    destruct (_ || _); [inversion H; subst; eauto|].
    destruct (step_new _ [in_; j; k; s] _ _ _ SY eq_refl H P eq_refl) as [P'|P']; [|eauto]. inversion P'; subst.
    exfalso. apply Nk. reflexivity.
  Qed.

  (** Where the switches are passed: leaving [s], or entering it from the station before. *)
  Lemma place_departure s l pair j place :
    In (s, l) (ts_Jswitch ts) -> In pair l -> dget j pair = Some place -> proper_place ts s j place ->
    exists sp, departure_station4switches s j pair ts = Ok sp /\
      ((place = PStr "out" /\ sp = s /\ decided ts j s) \/ (place = PStr "in" /\ comes_before ts j sp s)).
  Proof.
    intros H1 H2 H3 [(-> & D)|(-> & sp & C)]; unfold departure_station4switches, dlookup at 1; rewrite H3;
      cbn [bind].
    - exists s. split; [reflexivity|]. auto.
    - exists sp. change (eqb (PStr "in") (PStr "out")) with false. change (eqb (PStr "in") (PStr "in")) with true.
      cbv iota. destruct (before_lookup _ _ _ C) as (path & -> & Hp). cbn [bind]. split; auto.
  Qed.

  (** A switch entry: two trains in the order of [J], with the stations they leave. *)
  Lemma switch_entry s l pair : In (s, l) (ts_Jswitch ts) -> In pair l ->
    exists j a k b sp spp, pair = [(j, a); (k, b)] /\ unpack2 pair = Ok (j, k) /\ listed (ts_J ts) j k /\
      departure_station4switches s j pair ts = Ok sp /\ departure_station4switches s k pair ts = Ok spp /\
      ((a = PStr "out" /\ sp = s /\ decided ts j s) \/ (a = PStr "in" /\ comes_before ts j sp s)) /\
      ((b = PStr "out" /\ spp = s /\ decided ts k s) \/ (b = PStr "in" /\ comes_before ts k spp s)) /\
      (sp = spp -> sp <> s -> exists mo, can_MO_on_line j k s ts = Ok mo).
  Proof.
    intros H1 H2. destruct (wf_switch _ _ _ WF _ _ H1) as [_ H].
    destruct (H _ H2) as (j & a & k & b & -> & L & Pa & Pb & JD).
    assert (N : j <> k) by (eapply listed_neq; [apply (wf_trains _ _ _ WF)|exact L]).
    assert (Ga : dget j [(j, a); (k, b)] = Some a) by (cbn [dget]; destruct (eq_dec j j); congruence).
    assert (Gb : dget k [(j, a); (k, b)] = Some b).
    { cbn [dget]. destruct (eq_dec k j); [congruence|]. destruct (eq_dec k k); congruence. }
    destruct (place_departure _ _ _ _ _ H1 H2 Ga Pa) as (sp & D1 & C1).
    destruct (place_departure _ _ _ _ _ H1 H2 Gb Pb) as (spp & D2 & C2).
    exists j, a, k, b, sp, spp. repeat split; auto.
    intros <- Ns. destruct C1 as [(_ & -> & _)|(Ea & C1)]; [congruence|].
    destruct C2 as [(_ & -> & _)|(Eb & C2)]; [congruence|].
    unfold can_MO_on_line. destruct (before_lookup _ _ _ C1) as (p1 & -> & E1). cbn [bind]. rewrite E1. cbn [bind].
    destruct (before_lookup _ _ _ C2) as (p2 & -> & E2). cbn [bind]. rewrite E2. cbn [bind].
    specialize (JD Ea Eb sp C1 C2). destruct (ts_Jd ts) as [|kv r] eqn:EJ; [eauto|].
    assert (Nn : sp <> PNone) by (eapply before_not_none; eauto).
    unfold is_none. rewrite (proj2 (eqb_false sp PNone) Nn), eqb_refl. cbn [orb negb].
    destruct JD as [JD|(inner & groups & I1 & I2)]; [discriminate|]. unfold dlookup.
    rewrite I1. cbn [bind]. rewrite I2. cbn [bind]. eauto.
  Qed.

  Lemma switch_place_ok s l pair j k sp spp : In (s, l) (ts_Jswitch ts) -> In pair l ->
    unpack2 pair = Ok (j, k) ->
    departure_station4switches s j pair ts = Ok sp -> departure_station4switches s k pair ts = Ok spp ->
    station_name_ok sp /\ station_name_ok spp.
  Proof.
    intros H1 H2 U D1 D2. destruct (unpack2_keys _ _ _ U) as [K1 K2].
    split; eapply departure_station_ok; [exact RF|exact H1|exact H2|exact K1|exact D1|
      exact RF|exact H1|exact H2|exact K2|exact D2].
  Qed.

  Theorem orders_built : exists y, order_variables ts = Ok y /\ oriented y.
  Proof.
    unfold order_variables.
    assert (T : forall j, In j (mentioned_trains ts) -> train_name_ok j) by (apply rf_train; exact RF).
    assert (S0 : forall s, In s (mentioned_stations ts) -> station_name_ok s) by (apply rf_station; exact RF).
    assert (O0 : oriented (TNode [])).
    { split; [apply store_ok_empty|]. intros j k s (v & H). discriminate. }
    destruct (foldM_total oriented (fun y (e : (pv * pv) * list (pv * pv)) =>
           foldM (fun y (p : pv * pv) =>
                    update_y4 y (fst p) (snd p) (fst (fst e)) (snd (fst e)))
             (snd e) y) (ts_Josingle ts) (TNode []) O0) as (y1 & E1 & O1).
    { intros y [k l] I O. apply foldM_total; [exact O|]. intros y' [j jp] I' O'.
      destruct (mention_single ts k l j jp I I') as (M1 & M2 & M3 & M4). apply y4_built; auto. }
    change (order_var4single_line (TNode []) ts = Ok y1) in E1. rewrite E1. cbn [bind].
    assert (G3 : forall s js y, (forall j k, listed js j k -> listed (ts_J ts) j k) ->
      (forall j, In j js -> train_name_ok j) -> oriented y ->
      exists y', foldM (fun y (p : pv * pv) => update_y3 y (fst p) (snd p) s) (combinations2 js) y = Ok y'
        /\ oriented y').
    { intros s js y L N O. apply foldM_total; [exact O|]. intros y' [j k] I O'. cbn [fst snd].
      assert (I' := combinations2_mem _ _ _ I). apply y3_built; auto; try (apply N; tauto).
      apply L. apply listed_combinations. exact I. }
    assert (E2 : exists y2, order_var4minimal_span y1 ts = Ok y2 /\ oriented y2).
    { apply foldM_total; [exact O1|]. intros y [s inner] I O. apply foldM_total; [exact O|].
      intros y' [sp groups] I' O'. apply foldM_total; [exact O'|]. intros y'' js I'' O''. cbn [fst snd] in *.
      destruct (wf_Jd _ _ _ WF _ _ _ _ I I') as [[L _] _]. apply G3; [intros; eapply L; eauto| |exact O''].
      intros j Ij. apply T. eapply mention_jd; eauto. }
    destruct E2 as (y2 & E2 & O2). rewrite E2. cbn [bind].
    assert (E3 : exists y3, order_var4track y2 ts = Ok y3 /\ oriented y3).
    { apply foldM_total; [exact O2|]. intros y [s groups] I O. apply foldM_total; [exact O|].
      intros y'' js I'' O''. cbn [fst snd] in *.
      destruct (wf_track _ _ _ WF _ _ I) as [[L _] _]. apply G3; [intros; eapply L; eauto| |exact O''].
      intros j Ij. apply T. eapply mention_track; eauto. }
    destruct E3 as (y3 & E3 & O3). rewrite E3. cbn [bind].
    apply foldM_total; [exact O3|]. intros y [s l] I O. apply foldM_total; [exact O|].
    intros y' pair I' O'. cbn [fst snd] in *.
    destruct (switch_entry _ _ _ I I') as (j & a & k & b & sp & spp & EP & U & L & D1 & D2 & C1 & C2 & MO).
    destruct (switch_place_ok _ _ _ _ _ _ _ I I' U D1 D2) as [N1 N2].
    destruct (unpack2_keys _ _ _ U) as [K1 K2].
    assert (T1 : train_name_ok j) by (apply T; eapply mention_switch; [exact I|exact I'|exact K1]).
    assert (T2 : train_name_ok k) by (apply T; eapply mention_switch; [exact I|exact I'|exact K2]).
    unfold order_var4switch_pair. rewrite U. cbn [bind]. rewrite D1. cbn [bind]. rewrite D2. cbn [bind].
    destruct (eqb sp spp) eqn:Es.
    - apply eqb_eq in Es. destruct (eqb sp s) eqn:Es2; [apply y3_built; auto|].
      apply eqb_neq in Es2. destruct (MO Es Es2) as ([|] & ->); cbn [bind];
        [apply y4in_built; auto|apply y3_built; auto].
    - destruct (_ || _); [apply y4_built; auto|apply y4in_built; auto].
  Qed.
End Wf.

(** ** Every rule is written without failing *)

Section Emit.
  Variables (ts : train_sets) (tt : timetable) (d_max : Q) (cat : vcat) (dv y : tree).
  Hypothesis WF : well_formed ts tt d_max.
  Hypothesis Hdv : delay_varibles ts d_max cat = Ok dv.
  Hypothesis Hy : order_variables ts = Ok y.
  Hypothesis HO : oriented ts y.

  Let RF := wf_reserved _ _ _ WF.
  Notation edt := (earliest_dep_time (ts_Paths ts) tt).

  Lemma get2_ok j s : decided ts j s -> exists v, get2 dv j s = Ok v.
  Proof.
    intros D. apply (has_delay_decided ts j s RF) in D. eexists.
    apply (get2_char ts d_max cat dv j s _ Hdv). split; [exact D|reflexivity].
  Qed.

  Lemma y3_read j k s : covered3 j k s y -> exists a, get_y3 y j k s = Ok a.
  Proof.
    intros C. unfold get_y3, check_order_var_3arg. destruct (check_order_var_4arg y j k one_station s) eqn:E.
    - apply udepth4_leaf in E as (v & E); [|apply HO]. apply get4_tpath in E. rewrite E. cbn. eauto.
    - destruct C as [(v & C)|(v & C)]; [apply tpath_check4 in C; congruence|].
      apply get4_tpath in C. rewrite C. cbn. eauto.
  Qed.

  Lemma covered3_sym j k s : covered3 j k s y -> covered3 k j s y.
  Proof. unfold covered3. tauto. Qed.

  Lemma y4_read j k s sp : present y [j; k; s; sp] \/ present y [k; j; sp; s] ->
    exists a, get_y4_singleline y j k s sp = Ok a.
  Proof.
    intros C. unfold get_y4_singleline. destruct (check_order_var_4arg y j k s sp) eqn:E.
    - apply udepth4_leaf in E as (v & E); [|apply HO]. apply get4_tpath in E. rewrite E. cbn. eauto.
    - destruct C as [(v & C)|(v & C)]; [apply tpath_check4 in C; congruence|].
      apply get4_tpath in C. rewrite C. cbn. eauto.
  Qed.

  Lemma yin_read j k s : present y [in_; j; k; s] \/ present y [in_; k; j; s] ->
    exists a, get_y4_in y in_ j k s = Ok a.
  Proof.
    intros C. unfold get_y4_in. destruct (check_order_var_4arg y in_ j k s) eqn:E.
    - apply udepth4_leaf in E as (v & E); [|apply HO]. apply get4_tpath in E. rewrite E. cbn. eauto.
    - destruct C as [(v & C)|(v & C)]; [apply tpath_check4 in C; congruence|].
      apply get4_tpath in C. rewrite C. cbn. eauto.
  Qed.

  Ltac val H := let v := fresh "v" in let E := fresh "E" in destruct H as (v & E); rewrite E; cbn [bind].

  Lemma ms_ok s sp j k :
    decided ts j s -> decided ts k s -> (exists h, headway tt j k s sp h) -> covered3 j k s y ->
    exists o, ms_emit tt dv y ts d_max s sp j k = Ok o.
  Proof.
    intros D1 D2 (h & Hh) C. unfold ms_emit.
    val (edt_decided _ _ _ WF _ _ D2). val (edt_decided _ _ _ WF _ _ D1).
    assert (Eh : tau_headway tt j k s sp = Ok h) by (apply dlookup_ok; exact Hh). rewrite Eh. cbn [bind].
    cbv zeta. destruct (qltb _ _); [|eauto].
    val (get2_ok _ _ D2). val (get2_ok _ _ D1). val (y3_read _ _ _ (covered3_sym _ _ _ C)).
    unfold emit1. eauto.
  Qed.

  Lemma sl_ok s sp j k :
    comes_before ts j s sp -> comes_before ts k sp s ->
    present y [j; k; s; sp] \/ present y [k; j; sp; s] ->
    exists o, sl_emit tt dv y ts d_max s sp j k = Ok o.
  Proof.
    intros C1 C2 P. assert (D1 := before_decided _ _ _ WF _ _ _ C1). assert (D2 := before_decided _ _ _ WF _ _ _ C2).
    unfold sl_emit. val (edt_decided _ _ _ WF _ _ D1). val (edt_decided _ _ _ WF _ _ D2).
    val (run_ok _ _ _ WF _ _ _ C2). cbv zeta. destruct (qltb _ _); [|eauto].
    val (get2_ok _ _ D1). val (get2_ok _ _ D2). val (y4_read _ _ _ _ P). unfold emit1. eauto.
  Qed.

  Lemma stay_ok j s : on_path ts j s -> exists o, stay_emit tt dv ts j s = Ok o.
  Proof.
    intros (path & Hp & Hs). unfold stay_emit. unfold dlookup at 1. rewrite Hp. cbn [bind].
    destruct (previous_station path s) as [sp|] eqn:Ep; cbn [bind].
    2:{ unfold previous_station in Ep. apply lindex_in in Hs as (n & Hn). rewrite Hn in Ep. cbn [bind] in Ep.
        destruct (Nat.eqb n 0) eqn:E0; [discriminate|]. unfold lnth in Ep.
        destruct (nth_error path (n - 1)) eqn:En; [discriminate|]. apply nth_error_None in En.
        apply lindex_spec in Hn as [Hn _]. assert (nth_error path n <> None) by congruence.
        apply nth_error_Some in H. lia. }
    destruct (prev_cases ts RF j path s sp Hp Ep) as [[-> _]|[Nn C]]; [unfold is_none; rewrite eqb_refl; eauto|].
    unfold is_none. rewrite (proj2 (eqb_false sp PNone) Nn).
    assert (D1 := before_decided _ _ _ WF _ _ _ C).
    assert (J : exists dj, tlookup j dv = Ok dj).
    { destruct (get2_ok _ _ D1) as (v & G). unfold get2 in G. destruct (tlookup j dv); [eauto|discriminate]. }
    destruct J as (dj & J). rewrite J. cbn [bind]. destruct (tmem s dj) eqn:M; [|eauto].
    apply (tmem_delay ts d_max cat dv Hdv j s dj J) in M. apply (has_delay_decided ts j s RF) in M.
    val (get2_ok _ _ M). val (edt_decided _ _ _ WF _ _ M). val (get2_ok _ _ D1).
    val (edt_decided _ _ _ WF _ _ D1). val (run_ok _ _ _ WF _ _ _ C). val (stop_ok _ _ _ WF _ _ _ C M).
    unfold emit1. eauto.
  Qed.

  Lemma circ_ok s j k :
    (exists sp, comes_before ts j sp s) -> starts_at ts k s -> decided ts k s -> (exists q, preparation tt k s q) ->
    exists o, circ_emit tt dv ts d_max s j k = Ok o.
  Proof.
    intros (sp & C) S1 D (q & Hq). assert (D1 := before_decided _ _ _ WF _ _ _ C).
    unfold circ_emit. destruct (before_lookup _ _ _ _ C) as (path & -> & Ep). cbn [bind]. rewrite Ep. cbn [bind].
    val (edt_decided _ _ _ WF _ _ D1). val (edt_decided _ _ _ WF _ _ D). val (run_ok _ _ _ WF _ _ _ C).
    assert (Eq : tau_prep tt k s = Ok q) by (apply dlookup_ok; exact Hq). rewrite Eq. cbn [bind]. cbv zeta.
    destruct (qltb _ _); [|eauto]. val (get2_ok _ _ D1). val (get2_ok _ _ D). unfold emit1. eauto.
  Qed.

  (** A use of the switches at [s] by train [j], with the station it leaves. *)
  Definition passes (s j sp : pv) : Prop := (sp = s /\ decided ts j s) \/ comes_before ts j sp s.

  Lemma passes_decided s j sp : passes s j sp -> decided ts j sp.
  Proof. intros [[-> D]|C]; [exact D|]. eapply before_decided; eauto. Qed.

  Lemma switch_covered_sym s sp spp j k :
    switch_covered ts s sp spp j k y -> switch_covered ts s spp sp k j y.
  Proof.
    unfold switch_covered, covered3. intros [(<- & C & [H|H])|[(<- & N & H & C)|[(N & H & C)|(N & N1 & N2 & C)]]].
    - left. tauto.
    - apply can_MO_sym in H. left. tauto.
    - apply can_MO_sym in H. right; left. tauto.
    - right; right; left. split; [congruence|]. tauto.
    - right; right; right. split; [congruence|]. tauto.
  Qed.

  Lemma order_ok s j sp k spp : switch_covered ts s sp spp j k y -> exists a, sw_order y ts s j sp k spp = Ok a.
  Proof.
    intros C. unfold sw_order. destruct (eqb spp sp) eqn:E.
    - apply eqb_eq in E. subst spp. destruct (eqb sp s) eqn:Es.
      + apply eqb_eq in Es. apply y3_read. destruct C as [(_ & C & _)|[(_ & N & _)|[(N & _)|(N & _)]]]; congruence.
      + apply eqb_neq in Es. destruct C as [(_ & C & [?|M])|[(_ & N & M & C)|[(N & _)|(N & _)]]]; try congruence;
          rewrite M; cbn [bind]; [apply y3_read; exact C|apply yin_read; exact C].
    - apply eqb_neq in E. destruct (eqb s spp || eqb s sp) eqn:Es.
      + apply orb_true_iff in Es. rewrite !eqb_true in Es. apply y4_read.
        destruct C as [(? & _)|[(? & _)|[(_ & _ & C)|(_ & N1 & N2 & _)]]]; try congruence. destruct Es; congruence.
      + apply orb_false_iff in Es. rewrite !eqb_false in Es. apply yin_read.
        destruct C as [(? & _)|[(? & _)|[(_ & [?|?] & C)|(_ & _ & _ & C)]]]; try congruence; destruct Es; congruence.
  Qed.

  Lemma sw_ok s j sp k spp : passes s j sp -> passes s k spp -> switch_covered ts s sp spp j k y ->
    exists o, sw_emit tt dv y ts d_max s j sp k spp = Ok o.
  Proof.
    intros P1 P2 C. assert (D1 := passes_decided _ _ _ P1). assert (D2 := passes_decided _ _ _ P2).
    unfold sw_emit. val (edt_decided _ _ _ WF _ _ D1). val (edt_decided _ _ _ WF _ _ D2).
    val (res_ok _ _ _ WF).
    assert (A : forall i u q, passes s i u ->
      exists r, (if eqb s u then Ok q else do p <- tau_pass tt i u s; Ok (q + p)) = Ok r).
    { intros i u q [[-> _]|B]; [rewrite eqb_refl; eauto|].
      destruct (eqb s u); [eauto|]. destruct (run_ok _ _ _ WF _ _ _ B) as (r & ->). cbn. eauto. }
    val (A _ _ v P1). val (A _ _ (v0 + v1) P2). cbv zeta. destruct (qltb _ _); [|eauto].
    val (order_ok _ _ _ _ _ C). val (get2_ok _ _ D1). val (get2_ok _ _ D2). unfold emit1. eauto.
  Qed.

  (** Station tracks. *)

  Lemma track_skip_ok s groups j : In (s, groups) (ts_Jtrack ts) -> exists b, track_skip j s ts = Ok b.
  Proof.
    intros I. unfold track_skip. destruct (ts_skip ts) as [sk|] eqn:E; [|eauto].
    destruct (dget j sk) as [t|] eqn:Et; [|eauto].
    destruct (wf_skip_text _ _ _ WF j t) as (n & ->); [exists sk; auto|].
    destruct (wf_track_text _ _ _ WF s groups) as (m & ->); [congruence|exact I|]. eauto.
  Qed.

  Lemma not_skipped s j : track_skip j s ts = Ok false -> ~ skipped ts j s.
  Proof.
    unfold track_skip. intros H (sk & E & D). rewrite E, D in H.
    destruct (wf_skip_text _ _ _ WF j s) as (n & ->); [exists sk; auto|].
    rewrite str_contains_self in H. discriminate.
  Qed.

  Lemma arrival_ok s k : on_path ts k s -> exists L src, arrival tt ts s k = Ok (L, src) /\
    exists a, arrival_aff dv L src = Ok a.
  Proof.
    intros (path & Hp & Hs). unfold arrival.
    assert (F : dlookup k (ts_Paths ts) = Ok path) by (apply dlookup_ok; exact Hp).
    assert (Pr : exists sp, previous_station path s = Ok sp).
    { unfold previous_station. apply lindex_in in Hs as (n & Hn). rewrite Hn. cbn [bind].
      destruct (Nat.eqb n 0); [eauto|]. unfold lnth. destruct (nth_error path (n - 1)) eqn:En; [eauto|].
      apply nth_error_None in En. apply lindex_spec in Hn as [Hn _].
      assert (X : nth_error path n <> None) by congruence. apply nth_error_Some in X. lia. }
    destruct Pr as (sp & Ep). rewrite F. cbn [bind]. rewrite Ep. cbn [bind].
    destruct (previous_train_spec ts RF k s) as [[Nr T]|[-> _]].
    - unfold is_none at 1. rewrite (proj2 (eqb_false _ _) Nr). cbn [negb].
      apply taken_of in T as (l & I1 & I2). destruct (wf_round _ _ _ WF _ _ I1) as [_ R].
      destruct (R _ _ I2) as (_ & (rp & C) & _).
      destruct (before_lookup _ _ _ _ C) as (pr & -> & Er). cbn [bind]. rewrite Er. cbn [bind].
      assert (D := before_decided _ _ _ WF _ _ _ C).
      val (edt_decided _ _ _ WF _ _ D). val (run_ok _ _ _ WF _ _ _ C).
      eexists _, _. split; [reflexivity|]. cbn [arrival_aff]. val (get2_ok _ _ D). eauto.
    - change (is_none PNone) with true. cbn [negb].
      destruct (prev_cases ts RF k path s sp Hp Ep) as [[-> S1]|[Nn C]].
      + change (is_none PNone) with true. cbn [negb]. val (edt_start _ _ _ WF _ _ S1).
        eexists _, _. split; [reflexivity|]. cbn. eauto.
      + unfold is_none. rewrite (proj2 (eqb_false sp PNone) Nn). cbn [negb].
        assert (D := before_decided _ _ _ WF _ _ _ C).
        val (edt_decided _ _ _ WF _ _ D). val (run_ok _ _ _ WF _ _ _ C).
        eexists _, _. split; [reflexivity|]. cbn [arrival_aff]. val (get2_ok _ _ D). eauto.
  Qed.

  Lemma tos_ok s groups js j k :
    In (s, groups) (ts_Jtrack ts) -> In js groups -> In j js -> In k js -> covered3 j k s y ->
    ~ same_rolling_stock ts j k -> track_skip j s ts = Ok false ->
    exists o, tos_emit tt dv y ts d_max s j k = Ok o.
  Proof.
    intros I1 I2 Ij Ik C NS SK. destruct (wf_track _ _ _ WF _ _ I1) as (_ & OP & CL).
    unfold tos_emit. cbv zeta. destruct (subsequent_train_spec ts RF j s) as [[Nn CA]|[En NC]].
    - unfold is_none. rewrite (proj2 (eqb_false _ _) Nn). cbn [negb].
      val (y3_read _ _ _ (covered3_sym _ _ _ C)).
      set (jn := subsequent_train_at_Jround ts j s) in *.
      assert (In jn js) by exact (CL _ _ _ I2 Ij CA).
      assert (NE : jn <> k).
      { intros Ejn. destruct (round_of _ _ _ _ CA) as (l & R1 & R2). apply NS. rewrite <- Ejn. split.
        - intros Ejj. destruct (wf_round _ _ _ WF _ _ R1) as [_ R]. destruct (R _ _ R2) as (_ & (sp & B) & ST & _).
          rewrite <- Ejj in ST. eapply comes_before_not_start; eauto.
        - exists s, l. auto. }
      assert (CC : covered3 k jn s y).
      { destruct (order_variables_cover ts RF y Hy) as (_ & _ & HC & _).
        destruct (both_listed js jn k) as [L|L]; auto; apply listed_combinations in L.
        - apply covered3_sym. eapply HC; eauto.
        - eapply HC; eauto. }
      val (y3_read _ _ _ CC). unfold emit1. eauto.
    - rewrite En. change (is_none PNone) with true. cbn [negb].
      assert (D : decided ts j s).
      { assert (O := OP _ _ I2 Ij). destruct O as (path & Hp & Hs). destruct (path_known _ _ _ WF _ _ Hp) as [J _].
        split; [exact J|]. split; [eauto|]. split; [apply not_skipped; exact SK|].
        intros (jn & X). exact (NC _ X). }
      destruct (arrival_ok s k (OP _ _ I2 Ik)) as (L & src & -> & a & A). cbn [bind].
      val (edt_decided _ _ _ WF _ _ D).
      assert (X : exists r, extra_res s tt ts v = Ok r).
      { unfold extra_res. destruct (ts_add_switches ts) as [l|]; [|eauto]. destruct (lmem s l); [|eauto].
        val (res_ok _ _ _ WF). eauto. }
      val X. cbv zeta. destruct (qltb _ _); [|eauto]. rewrite A. cbn [bind].
      val (y3_read _ _ _ (covered3_sym _ _ _ C)). val (get2_ok _ _ D). unfold emit1. eauto.
  Qed.

  Lemma kto_ok s groups js j k :
    In (s, groups) (ts_Jtrack ts) -> In js groups -> listed js j k -> exists o, kto_emit y ts s j k = Ok o.
  Proof.
    intros I1 I2 L. destruct (wf_track _ _ _ WF _ _ I1) as ((LJ & _) & OP & CL).
    assert (LJk := LJ _ _ _ I2 L). destruct (listed_in _ _ _ L) as [Ij Ik].
    assert (NJ := wf_trains _ _ _ WF).
    assert (Njk : j <> k) by (eapply listed_neq; eauto).
    assert (C : present y [j; k; one_station; s]).
    { destruct (order_variables_cover ts RF y Hy) as (_ & _ & HC & _).
      apply listed_combinations in L. destruct (HC _ _ _ _ _ I1 I2 L) as [C|C]; [exact C|].
      exfalso. apply (proj2 HO) in C. eapply listed_asym; eauto. }
    assert (PS : forall i, In i js -> exists path sp, dlookup i (ts_Paths ts) = Ok path /\
      dget i (ts_Paths ts) = Some path /\ previous_station path s = Ok sp).
    { intros i Ii. destruct (OP _ _ I2 Ii) as (path & Hp & Hs).
      assert (Pr : exists sp, previous_station path s = Ok sp).
      { unfold previous_station. apply lindex_in in Hs as (n & Hn). rewrite Hn. cbn [bind].
        destruct (Nat.eqb n 0); [eauto|]. unfold lnth. destruct (nth_error path (n - 1)) eqn:En; [eauto|].
        apply nth_error_None in En. apply lindex_spec in Hn as [Hn _].
        assert (X : nth_error path n <> None) by congruence. apply nth_error_Some in X. lia. }
      destruct Pr as (sp & Ep). exists path, sp. split; [apply dlookup_ok; exact Hp|]. auto. }
    destruct (PS j Ij) as (pj & sp & Fj & Gj & Ej). destruct (PS k Ik) as (pk & spp & Fk & Gk & Ek).
    unfold kto_emit. rewrite Fj. cbn [bind]. rewrite Ej. cbn [bind].
    destruct (dget sp (ts_Jd ts)) as [inner|] eqn:ED; [|eauto].
    destruct (dmem s inner) eqn:EM; [|eauto].
    assert (EG : dlookup s (ts_Jtrack ts) = Ok groups).
    { apply dlookup_ok. apply in_dget; [apply (wf_track_keys _ _ _ WF)|exact I1]. }
    rewrite EG. cbn [bind]. destruct (occurs_as_pair j k groups); [|eauto].
    assert (MO : exists b, can_MO_on_line j k s ts = Ok b /\ (b = true -> sp <> PNone /\ spp <> PNone)).
    { unfold can_MO_on_line. rewrite Fj, Fk. cbn [bind]. rewrite Ej. cbn [bind]. rewrite Ek. cbn [bind].
      destruct (ts_Jd ts) as [|kv r] eqn:EJ; [discriminate|].
      destruct (is_none sp || is_none spp) eqn:EN; [eexists; split; [reflexivity|discriminate]|].
      apply orb_false_iff in EN as [E1 E2]. apply eqb_neq in E1. apply eqb_neq in E2.
      destruct (eqb sp spp) eqn:EQ; cbn [negb]; [|eexists; split; [reflexivity|auto]].
      unfold dlookup. rewrite ED. cbn [bind]. apply dmem_true in EM. 
      destruct (dget s inner) as [g|] eqn:Eg; [|apply dget_none in Eg; contradiction]. cbn [bind].
      eexists; split; [reflexivity|auto]. }
    destruct MO as (mo & EMO & NN). rewrite EMO. cbn [bind].
    destruct C as (v & Cv).
    assert (IO : forall u, in_one_station y j k u = Ok (check_order_var_4arg y j k one_station u)).
    { intros u. apply tpath_check4 in Cv. unfold check_order_var_4arg in *. unfold in_one_station.
      destruct (tlookup j y) as [t1|]; [|discriminate]. cbn [bind].
      destruct (tlookup k t1) as [t2|]; [|discriminate]. cbn [bind].
      destruct (tlookup one_station t2) as [t3|]; [|discriminate]. reflexivity. }
    assert (G4 : get4 y j k one_station s = Ok v) by (apply get4_tpath; exact Cv).
    destruct mo; cbn [negb].
    - destruct (entering_via_same_switches ts s j k) eqn:EE; [|eauto].
      unfold entering_via_same_switches in EE. destruct (dget s (ts_Jswitch ts)) as [l|] eqn:ES; [|discriminate].
      apply existsb_exists in EE as (pair & Ip & EE). apply dget_in in ES.
      destruct (switch_entry _ _ _ WF _ _ _ ES Ip) as (j0 & a & k0 & b & u & w & EP & U & L0 & D1 & D2 & C1 & C2 & _).
      destruct (dget j pair) as [pa|] eqn:E1; [|discriminate]. destruct (dget k pair) as [pb|] eqn:E2; [|discriminate].
      apply andb_true_iff in EE as [EE1 EE2]. apply eqb_eq in EE1. apply eqb_eq in EE2. subst pa pb.
      assert (J0 : j0 = j /\ k0 = k /\ a = PStr "in" /\ b = PStr "in").
      { subst pair. cbn [dget] in E1, E2.
        destruct (eq_dec j j0) as [->|N1], (eq_dec k j0) as [->|N2]; try congruence.
        - destruct (eq_dec k k0) as [->|N3]; [|discriminate]. repeat split; congruence.
        - destruct (eq_dec j k0) as [->|N3]; [|discriminate]. exfalso. eapply listed_asym; [exact NJ| |]; eauto.
        - destruct (eq_dec j k0), (eq_dec k k0); congruence. }
      destruct J0 as (-> & -> & -> & ->).
      destruct C1 as [(X & _)|(_ & C1)]; [discriminate|]. destruct C2 as [(X & _)|(_ & C2)]; [discriminate|].
      destruct (order_variables_cover ts RF y Hy) as (_ & _ & _ & HC).
      destruct (HC _ _ _ ES Ip) as (j1 & k1 & u1 & w1 & U1 & D3 & D4 & SC).
      rewrite U in U1. inversion U1; subst j1 k1. rewrite D1 in D3. inversion D3; subst u1.
      rewrite D2 in D4. inversion D4; subst w1.
      assert (Nu : u <> s).
      { intros ->. destruct C1 as (pth & l1 & l2 & _ & _ & NI). apply NI. apply in_app_iff. cbn. auto. }
      assert (Nw : w <> s).
      { intros ->. destruct C2 as (pth & l1 & l2 & _ & _ & NI). apply NI. apply in_app_iff. cbn. auto. }
      assert (PY : present y [in_; j; k; s] \/ present y [in_; k; j; s]).
      { destruct SC as [(_ & _ & [X|X])|[(_ & _ & _ & X)|[(_ & [X|X] & _)|(_ & _ & _ & X)]]]; congruence || auto. }
      val (yin_read _ _ _ PY). rewrite G4. cbn [bind]. unfold emit1. eauto.
    - rewrite IO. cbn [bind]. rewrite (tpath_check4 _ _ _ _ _ _ Cv). rewrite IO. cbn [bind].
      destruct (check_order_var_4arg y j k one_station sp) eqn:EC; [|eauto].
      apply udepth4_leaf in EC as (v2 & EC); [|apply HO]. apply get4_tpath in EC.
      rewrite G4. cbn [bind]. rewrite EC. cbn [bind]. unfold emit1. eauto.
  Qed.
End Emit.
