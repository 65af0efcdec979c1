(** * OrderVars: the order-variable store built by [order_variables] *)

From Coq Require Import List String ZArith QArith Bool Arith Lia Lqa.
From Verif Require Import Base Pulp Helpers LinearSolver BaseFacts Spec TreeFacts.
Import ListNotations.
Open Scope string_scope.
Open Scope list_scope.

(** ** Mentioned identifiers *)

Section Mentions.
  Variable ts : train_sets.

  Lemma mention_single k l j jp :
    In (k, l) (ts_Josingle ts) -> In (j, jp) l ->
    In j (mentioned_trains ts) /\ In jp (mentioned_trains ts) /\
    In (fst k) (mentioned_stations ts) /\ In (snd k) (mentioned_stations ts).
  Proof.
    intros Hk Hl. unfold mentioned_trains, mentioned_stations.
    rewrite !in_app_iff, !in_flat_map. repeat split.
    - right; right; left. exists (k, l); split; auto. apply in_flat_map.
      exists (j, jp); simpl; auto.
    - right; right; left. exists (k, l); split; auto. apply in_flat_map.
      exists (j, jp); simpl; auto.
    - right; left. exists (k, l); simpl; auto.
    - right; left. exists (k, l); simpl; auto.
  Qed.

  Lemma mention_jd s inner sp groups js j :
    In (s, inner) (ts_Jd ts) -> In (sp, groups) inner -> In js groups -> In j js ->
    In j (mentioned_trains ts) /\ In s (mentioned_stations ts) /\ In sp (mentioned_stations ts).
  Proof.
    intros H1 H2 H3 H4. unfold mentioned_trains, mentioned_stations.
    rewrite !in_app_iff, !in_flat_map. repeat split.
    - right; right; right; left. exists (s, inner); split; auto. apply in_flat_map.
      exists (sp, groups); split; auto. apply in_concat. exists js; auto.
    - right; right; left. exists (s, inner); simpl; auto.
    - right; right; left. exists (s, inner); split; auto. simpl. right.
      apply in_map_iff. exists (sp, groups); auto.
  Qed.

  Lemma mention_track s groups js j :
    In (s, groups) (ts_Jtrack ts) -> In js groups -> In j js ->
    In j (mentioned_trains ts) /\ In s (mentioned_stations ts).
  Proof.
    intros H1 H3 H4. unfold mentioned_trains, mentioned_stations.
    rewrite !in_app_iff, !in_flat_map. split.
    - right; right; right; right; right; left. exists (s, groups); split; auto.
      apply in_concat. exists js; auto.
    - right; right; right; right; left. apply in_map_iff. exists (s, groups); auto.
  Qed.

  Lemma mention_switch s l pair j :
    In (s, l) (ts_Jswitch ts) -> In pair l -> In j (dkeys pair) ->
    In j (mentioned_trains ts) /\ In s (mentioned_stations ts).
  Proof.
    intros H1 H3 H4. unfold mentioned_trains, mentioned_stations.
    rewrite !in_app_iff, !in_flat_map. split.
    - right; right; right; right; right; right. exists (s, l); split; auto.
      apply in_flat_map. exists pair; auto.
    - right; right; right; right; right. apply in_map_iff. exists (s, l); auto.
  Qed.

  Lemma mention_round s l j jp :
    In (s, l) (ts_Jround ts) -> In (j, jp) l ->
    In j (mentioned_trains ts) /\ In jp (mentioned_trains ts) /\ In s (mentioned_stations ts).
  Proof.
    intros H1 H3. unfold mentioned_trains, mentioned_stations.
    rewrite !in_app_iff, !in_flat_map. repeat split.
    - right; right; right; right; left. exists (s, l); split; auto.
      apply in_flat_map. exists (j, jp); simpl; auto.
    - right; right; right; right; left. exists (s, l); split; auto.
      apply in_flat_map. exists (j, jp); simpl; auto.
    - right; right; right; left. apply in_map_iff. exists (s, l); auto.
  Qed.

  Lemma mention_path j path s :
    dget j (ts_Paths ts) = Some path -> In s path -> In s (mentioned_stations ts).
  Proof.
    intros H1 H2. unfold mentioned_stations. rewrite in_app_iff. left.
    apply in_concat. exists path; split; auto. apply dget_in in H1.
    apply in_map_iff. exists (j, path); auto.
  Qed.

  Hypothesis RF : reserved_free ts.

  Lemma rf_train j : In j (mentioned_trains ts) -> train_name_ok j.
  Proof. intros H; apply RF in H as (? & ? & ?). split; assumption. Qed.

  Lemma rf_station s : In s (mentioned_stations ts) -> station_name_ok s.
  Proof. intros H; destruct RF as [_ HS]. exact (proj2 (HS _ H)). Qed.
End Mentions.

Lemma lnth_in {A} (l : list A) n x : lnth l n = Ok x -> In x l.
Proof.
  unfold lnth. destruct (nth_error l n) eqn:E; [|discriminate].
  intros H; inversion H; subst. eapply nth_error_In; eauto.
Qed.

Lemma previous_station_in path s sp :
  previous_station path s = Ok sp -> In s path /\ (sp = PNone \/ In sp path).
Proof.
  unfold previous_station. intros H. inv_bind H.
  split; [apply lindex_in; eauto|].
  destruct (Nat.eqb a 0); [inversion H; auto|]. right. eapply lnth_in; eauto.
Qed.

Lemma departure_station_ok ts s l pair j sp :
  reserved_free ts -> In (s, l) (ts_Jswitch ts) -> In pair l -> In j (dkeys pair) ->
  departure_station4switches s j pair ts = Ok sp -> station_name_ok sp.
Proof.
  intros RF H1 H2 H3 H. unfold departure_station4switches in H.
  inv_bind H. destruct (eqb a (PStr "out")).
  - inversion H; subst. apply (rf_station ts RF).
    destruct (mention_switch _ _ _ _ _ H1 H2 H3); auto.
  - destruct (eqb a (PStr "in")).
    + inv_bind H. apply previous_station_in in H as [_ [->|Hin]].
      * intros HC; discriminate.
      * apply (rf_station ts RF). eapply mention_path; eauto. apply dlookup_ok; eauto.
    + inversion H; subst. intros HC; discriminate.
Qed.

(** ** Extension of the store *)

Definition ext (y y' : tree) : Prop :=
  store_ok y' /\ forall r v, tpath r y = Some v -> tpath r y' = Some v.

Lemma ext_refl y : store_ok y -> ext y y.
Proof. split; auto. Qed.

Lemma ext_trans a b c : ext a b -> ext b c -> ext a c.
Proof. intros [? H1] [? H2]. split; auto. Qed.

Lemma ext_present y y' p : ext y y' -> present y p -> present y' p.
Proof. intros [_ H] [v Hv]. exists v; auto. Qed.

Lemma foldM_ext_store {A} (f : tree -> A -> res tree) l y y' :
  store_ok y ->
  (forall y x y', In x l -> store_ok y -> f y x = Ok y' -> ext y y') ->
  foldM f l y = Ok y' -> ext y y'.
Proof.
  intros Hy Hs H.
  refine (foldM_inv (fun z => ext y z) f l y y' (ext_refl y Hy) _ H).
  intros acc x acc' Hin Ha Hf. eapply ext_trans; [exact Ha|].
  eapply Hs; eauto. apply Ha.
Qed.

Lemma foldM_reach_store {A} (P : tree -> Prop) (f : tree -> A -> res tree) l y y' x :
  In x l -> store_ok y ->
  (forall y x y', In x l -> store_ok y -> f y x = Ok y' -> ext y y') ->
  (forall y y', ext y y' -> P y -> P y') ->
  (forall y y', store_ok y -> f y x = Ok y' -> P y') ->
  foldM f l y = Ok y' -> P y'.
Proof.
  intros Hin Hy Hs Hk Hx H.
  refine (foldM_reach P store_ok f l y y' x Hin Hy _ _ _ H).
  - intros acc z acc' Hz Ha Hf. destruct (Hs acc z acc' Hz Ha Hf); auto.
  - exact Hx.
  - intros acc z acc' Hz Ha HP Hf. eapply Hk; [eapply Hs; eauto|exact HP].
Qed.

Lemma update_y3_ext y j jp s y' :
  store_ok y -> train_name_ok j -> train_name_ok jp -> update_y3 y j jp s = Ok y' ->
  ext y y' /\ (present y' [j; jp; one_station; s] \/ present y' [jp; j; one_station; s]).
Proof.
  intros Hy Hj Hjp H. destruct (update_y3_ok y j jp s Hy Hj Hjp) as (z & Hz & H1 & H2 & H3).
  rewrite H in Hz; inversion Hz; subst. split; [split|]; auto.
Qed.

Lemma update_y4_ext y j jp s sp y' :
  store_ok y -> train_name_ok j -> train_name_ok jp -> station_name_ok s -> station_name_ok sp ->
  update_y4 y j jp s sp = Ok y' ->
  ext y y' /\ (present y' [j; jp; s; sp] \/ present y' [jp; j; sp; s]).
Proof.
  intros Hy Hj Hjp Hs Hsp H.
  destruct (update_y4_ok y j jp s sp Hy Hj Hjp Hs Hsp) as (z & Hz & H1 & H2 & H3).
  rewrite H in Hz; inversion Hz; subst. split; [split|]; auto.
Qed.

Lemma update_y4_in_ext y j jp s y' :
  store_ok y -> train_name_ok j -> train_name_ok jp -> update_y4_in y in_ j jp s = Ok y' ->
  ext y y' /\ (present y' [in_; j; jp; s] \/ present y' [in_; jp; j; s]).
Proof.
  intros Hy Hj Hjp H. destruct (update_y4_in_ok y j jp s Hy Hj Hjp) as (z & Hz & H1 & H2 & H3).
  rewrite H in Hz; inversion Hz; subst. split; [split|]; auto.
Qed.

(** ** The four passes *)

Section Passes.
  Variable ts : train_sets.
  Hypothesis RF : reserved_free ts.

  (** *** Single line *)

  Lemma single_line_step k l y p y' :
    In (k, l) (ts_Josingle ts) -> In p l -> store_ok y ->
    update_y4 y (fst p) (snd p) (fst k) (snd k) = Ok y' ->
    ext y y' /\ (present y' [fst p; snd p; fst k; snd k] \/ present y' [snd p; fst p; snd k; fst k]).
  Proof.
    intros Hk Hp Hy H. destruct p as [j jp].
    destruct (mention_single ts k l j jp Hk Hp) as (M1 & M2 & M3 & M4).
    apply update_y4_ext; auto.
    - eapply rf_train; eauto.
    - eapply rf_train; eauto.
    - eapply rf_station; eauto.
    - eapply rf_station; eauto.
  Qed.

  Lemma pass1_ext y y' : store_ok y -> order_var4single_line y ts = Ok y' -> ext y y'.
  Proof.
    intros Hy H. eapply foldM_ext_store; [exact Hy| |exact H].
    intros z [k l] z' Hin Hz Hf. simpl in Hf.
    eapply foldM_ext_store; [exact Hz| |exact Hf].
    intros w p w' Hp Hw Hu. simpl in Hu.
    destruct (single_line_step k l w p w' Hin Hp Hw Hu); auto.
  Qed.

  Lemma pass1_cover y y' k l j jp :
    store_ok y -> order_var4single_line y ts = Ok y' ->
    In (k, l) (ts_Josingle ts) -> In (j, jp) l ->
    present y' [j; jp; fst k; snd k] \/ present y' [jp; j; snd k; fst k].
  Proof.
    intros Hy H Hk Hl.
    assert (Mono : forall y y', ext y y' ->
       (present y [j; jp; fst k; snd k] \/ present y [jp; j; snd k; fst k]) ->
       (present y' [j; jp; fst k; snd k] \/ present y' [jp; j; snd k; fst k])).
    { intros a b Hab [?|?]; [left|right]; eapply ext_present; eauto. }
    unfold order_var4single_line in H.
    eapply (foldM_reach_store (fun y' => present y' [j; jp; fst k; snd k] \/ present y' [jp; j; snd k; fst k]));
      [exact Hk|exact Hy| |exact Mono| |exact H].
    - intros z [k' l'] z' Hin Hz Hf. simpl in Hf.
      eapply foldM_ext_store; [exact Hz| |exact Hf].
      intros w p w' Hp Hw Hu. simpl in Hu.
      destruct (single_line_step k' l' w p w' Hin Hp Hw Hu); auto.
    - intros z z' Hz Hf. simpl in Hf.
      eapply (foldM_reach_store (fun y' => present y' [j; jp; fst k; snd k] \/ present y' [jp; j; snd k; fst k]));
        [exact Hl|exact Hz| |exact Mono| |exact Hf].
      + intros w p w' Hp Hw Hu. simpl in Hu.
        destruct (single_line_step k l w p w' Hk Hp Hw Hu); auto.
      + intros w w' Hw Hu. simpl in Hu.
        destruct (single_line_step k l w (j, jp) w' Hk Hl Hw Hu) as [_ Hc]. exact Hc.
  Qed.

  (** *** Pairs of a group at one station (minimal span, track occupation) *)

  Definition covered3 (j jp s : pv) (y : tree) : Prop :=
    present y [j; jp; one_station; s] \/ present y [jp; j; one_station; s].

  Lemma covered3_mono j jp s y y' : ext y y' -> covered3 j jp s y -> covered3 j jp s y'.
  Proof. intros He [?|?]; [left|right]; eapply ext_present; eauto. Qed.

  Lemma group_ext js s y y' :
    (forall j, In j js -> train_name_ok j) -> store_ok y ->
    foldM (fun y (p : pv * pv) => update_y3 y (fst p) (snd p) s) (combinations2 js) y = Ok y' ->
    ext y y'.
  Proof.
    intros Hn Hy H. eapply foldM_ext_store; [exact Hy| |exact H].
    intros z [j jp] z' Hin Hz Hf. simpl in Hf. apply combinations2_mem in Hin as [? ?].
    apply (update_y3_ext z j jp s z'); auto.
  Qed.

  Lemma group_cover js s y y' j jp :
    (forall j, In j js -> train_name_ok j) -> store_ok y ->
    foldM (fun y (p : pv * pv) => update_y3 y (fst p) (snd p) s) (combinations2 js) y = Ok y' ->
    In (j, jp) (combinations2 js) -> covered3 j jp s y'.
  Proof.
    intros Hn Hy H Hin.
    eapply (foldM_reach_store (covered3 j jp s)); [exact Hin|exact Hy| |apply covered3_mono| |exact H].
    - intros z [a b] z' Ha Hz Hf. simpl in Hf. apply combinations2_mem in Ha as [? ?].
      apply (update_y3_ext z a b s z'); auto.
    - intros z z' Hz Hf. simpl in Hf. apply combinations2_mem in Hin as [? ?].
      apply (update_y3_ext z j jp s z'); auto.
  Qed.

  (** *** Minimal span *)

  Lemma jd_names s inner sp groups js j :
    In (s, inner) (ts_Jd ts) -> In (sp, groups) inner -> In js groups -> In j js ->
    train_name_ok j.
  Proof. intros. eapply rf_train; eauto. eapply mention_jd; eauto. Qed.

  Lemma pass2_inner_ext s inner sp groups y y' :
    In (s, inner) (ts_Jd ts) -> In (sp, groups) inner -> store_ok y ->
    foldM (fun y js => foldM (fun y (p : pv * pv) => update_y3 y (fst p) (snd p) s)
                         (combinations2 js) y) groups y = Ok y' -> ext y y'.
  Proof.
    intros H1 H2 Hy H. eapply foldM_ext_store; [exact Hy| |exact H].
    intros z js z' Hin Hz Hf. eapply group_ext; [|exact Hz|exact Hf].
    intros; eapply jd_names; eauto.
  Qed.

  Lemma pass2_ext y y' : store_ok y -> order_var4minimal_span y ts = Ok y' -> ext y y'.
  Proof.
    intros Hy H. eapply foldM_ext_store; [exact Hy| |exact H].
    intros z [s inner] z' Hin Hz Hf. simpl in Hf.
    eapply foldM_ext_store; [exact Hz| |exact Hf].
    intros w [sp groups] w' Hin2 Hw Hg. simpl in Hg. eapply pass2_inner_ext; eauto.
  Qed.

  Lemma pass2_cover y y' s inner sp groups js j jp :
    store_ok y -> order_var4minimal_span y ts = Ok y' ->
    In (s, inner) (ts_Jd ts) -> In (sp, groups) inner -> In js groups ->
    In (j, jp) (combinations2 js) -> covered3 j jp s y'.
  Proof.
    intros Hy H H1 H2 H3 H4. unfold order_var4minimal_span in H.
    eapply (foldM_reach_store (covered3 j jp s)); [exact H1|exact Hy| |apply covered3_mono| |exact H].
    - intros z [s' inner'] z' Hin Hz Hf. simpl in Hf.
      eapply foldM_ext_store; [exact Hz| |exact Hf].
      intros w [sp' groups'] w' Hin2 Hw Hg. simpl in Hg. eapply pass2_inner_ext; eauto.
    - intros z z' Hz Hf. simpl in Hf.
      eapply (foldM_reach_store (covered3 j jp s)); [exact H2|exact Hz| |apply covered3_mono| |exact Hf].
      + intros w [sp' groups'] w' Hin2 Hw Hg. simpl in Hg. eapply pass2_inner_ext; eauto.
      + intros w w' Hw Hg. simpl in Hg.
        eapply (foldM_reach_store (covered3 j jp s)); [exact H3|exact Hw| |apply covered3_mono| |exact Hg].
        * intros u js' u' Hin Hu Hf'. eapply group_ext; [|exact Hu|exact Hf'].
          intros; eapply jd_names; eauto.
        * intros u u' Hu Hf'. eapply group_cover; [|exact Hu|exact Hf'|exact H4].
          intros; eapply jd_names; eauto.
  Qed.

  (** *** Track occupation *)

  Lemma track_names s groups js j :
    In (s, groups) (ts_Jtrack ts) -> In js groups -> In j js -> train_name_ok j.
  Proof. intros. eapply rf_train; eauto. eapply mention_track; eauto. Qed.

  Lemma pass3_ext y y' : store_ok y -> order_var4track y ts = Ok y' -> ext y y'.
  Proof.
    intros Hy H. eapply foldM_ext_store; [exact Hy| |exact H].
    intros z [s groups] z' Hin Hz Hf. simpl in Hf.
    eapply foldM_ext_store; [exact Hz| |exact Hf].
    intros w js w' Hin2 Hw Hg. eapply group_ext; [|exact Hw|exact Hg].
    intros; eapply track_names; eauto.
  Qed.

  Lemma pass3_cover y y' s groups js j jp :
    store_ok y -> order_var4track y ts = Ok y' ->
    In (s, groups) (ts_Jtrack ts) -> In js groups ->
    In (j, jp) (combinations2 js) -> covered3 j jp s y'.
  Proof.
    intros Hy H H1 H3 H4. unfold order_var4track in H.
    eapply (foldM_reach_store (covered3 j jp s)); [exact H1|exact Hy| |apply covered3_mono| |exact H].
    - intros z [s' groups'] z' Hin Hz Hf. simpl in Hf.
      eapply foldM_ext_store; [exact Hz| |exact Hf].
      intros w js' w' Hin2 Hw Hg. eapply group_ext; [|exact Hw|exact Hg].
      intros; eapply track_names; eauto.
    - intros z z' Hz Hf. simpl in Hf.
      eapply (foldM_reach_store (covered3 j jp s)); [exact H3|exact Hz| |apply covered3_mono| |exact Hf].
      + intros w js' w' Hin2 Hw Hg. eapply group_ext; [|exact Hw|exact Hg].
        intros; eapply track_names; eauto.
      + intros w w' Hw Hg. eapply group_cover; [|exact Hw|exact Hg|exact H4].
        intros; eapply track_names; eauto.
  Qed.

  (** *** Switches *)

  (** Which decision a switch pair uses, linear_solver.py:124-132. *)
  Definition switch_covered (s sp spp jp jpp : pv) (y : tree) : Prop :=
    (sp = spp /\ covered3 jp jpp sp y /\
       (sp = s \/ can_MO_on_line jp jpp s ts = Ok false)) \/
    (sp = spp /\ sp <> s /\ can_MO_on_line jp jpp s ts = Ok true /\
       (present y [in_; jp; jpp; s] \/ present y [in_; jpp; jp; s])) \/
    (sp <> spp /\ (s = sp \/ s = spp) /\
       (present y [jp; jpp; sp; spp] \/ present y [jpp; jp; spp; sp])) \/
    (sp <> spp /\ s <> sp /\ s <> spp /\
       (present y [in_; jp; jpp; s] \/ present y [in_; jpp; jp; s])).

  Lemma switch_covered_mono s sp spp jp jpp y y' :
    ext y y' -> switch_covered s sp spp jp jpp y -> switch_covered s sp spp jp jpp y'.
  Proof.
    intros He H. unfold switch_covered, covered3 in *.
    assert (P := ext_present y y'). intuition eauto 12.
  Qed.

  Lemma unpack2_keys pair jp jpp : unpack2 pair = Ok (jp, jpp) -> In jp (dkeys pair) /\ In jpp (dkeys pair).
  Proof.
    destruct pair as [|[a x] [|[b z] [|c l]]]; simpl; try discriminate.
    intros H; inversion H; subst. auto.
  Qed.

  Lemma switch_step s l pair y y' :
    In (s, l) (ts_Jswitch ts) -> In pair l -> store_ok y ->
    order_var4switch_pair y s pair ts = Ok y' ->
    ext y y' /\
    exists jp jpp sp spp, unpack2 pair = Ok (jp, jpp) /\
      departure_station4switches s jp pair ts = Ok sp /\
      departure_station4switches s jpp pair ts = Ok spp /\
      switch_covered s sp spp jp jpp y'.
  Proof.
    intros H1 H2 Hy H. unfold order_var4switch_pair in H.
    inv_bind H. destruct a as [jp jpp]. inv_bind H. inv_bind H.
    rename a into sp, a0 into spp.
    destruct (unpack2_keys _ _ _ E) as [K1 K2].
    assert (N1 : train_name_ok jp) by (eapply rf_train; eauto; eapply mention_switch; eauto).
    assert (N2 : train_name_ok jpp) by (eapply rf_train; eauto; eapply mention_switch; eauto).
    assert (S1 : station_name_ok sp) by (eapply departure_station_ok; [|exact H1|exact H2|exact K1|]; eauto).
    assert (S2 : station_name_ok spp) by (eapply departure_station_ok; [|exact H1|exact H2|exact K2|]; eauto).
    cut (ext y y' /\ switch_covered s sp spp jp jpp y').
    { intros [He Hc]. split; [exact He|]. exists jp, jpp, sp, spp. auto. }
    unfold switch_covered. destruct (eqb sp spp) eqn:Eb.
    - apply eqb_eq in Eb. destruct (eqb sp s) eqn:Es.
      + apply eqb_eq in Es. apply update_y3_ext in H as [He Hc]; [|assumption..].
        split; [exact He|]. left. unfold covered3. tauto.
      + apply eqb_neq in Es. inv_bind H. destruct a.
        * apply update_y4_in_ext in H as [He Hc]; [|assumption..]. split; [exact He|]. right; left. tauto.
        * apply update_y3_ext in H as [He Hc]; [|assumption..]. split; [exact He|].
          left. unfold covered3. tauto.
    - apply eqb_neq in Eb. destruct (eqb s sp || eqb s spp) eqn:Es.
      + apply orb_true_iff in Es. rewrite !eqb_true in Es.
        apply update_y4_ext in H as [He Hc]; [|assumption..]. split; [exact He|]. right; right; left. tauto.
      + apply orb_false_iff in Es. rewrite !eqb_false in Es. destruct Es.
        apply update_y4_in_ext in H as [He Hc]; [|assumption..]. split; [exact He|].
        right; right; right. tauto.
  Qed.

  Lemma pass4_ext y y' : store_ok y -> order_var4switch y ts = Ok y' -> ext y y'.
  Proof.
    intros Hy H. eapply foldM_ext_store; [exact Hy| |exact H].
    intros z [s l] z' Hin Hz Hf. simpl in Hf.
    eapply foldM_ext_store; [exact Hz| |exact Hf].
    intros w pair w' Hin2 Hw Hg. eapply switch_step; eauto.
  Qed.

  Definition pair_covered (s : pv) (pair : dict pv pv) (y : tree) : Prop :=
    exists jp jpp sp spp, unpack2 pair = Ok (jp, jpp) /\
      departure_station4switches s jp pair ts = Ok sp /\
      departure_station4switches s jpp pair ts = Ok spp /\
      switch_covered s sp spp jp jpp y.

  Lemma pass4_cover y y' s l pair :
    store_ok y -> order_var4switch y ts = Ok y' ->
    In (s, l) (ts_Jswitch ts) -> In pair l -> pair_covered s pair y'.
  Proof.
    intros Hy H H1 H2. unfold order_var4switch in H.
    assert (Mono : forall y y', ext y y' -> pair_covered s pair y -> pair_covered s pair y').
    { intros a b Hab (jp & jpp & sp & spp & ? & ? & ? & ?). exists jp, jpp, sp, spp.
      repeat split; auto. eapply switch_covered_mono; eauto. }
    eapply (foldM_reach_store (pair_covered s pair)); [exact H1|exact Hy| |exact Mono| |exact H].
    - intros z [s' l'] z' Hin Hz Hf. simpl in Hf.
      eapply foldM_ext_store; [exact Hz| |exact Hf].
      intros w pair' w' Hin2 Hw Hg. eapply switch_step; eauto.
    - intros z z' Hz Hf. simpl in Hf.
      eapply (foldM_reach_store (pair_covered s pair)); [exact H2|exact Hz| |exact Mono| |exact Hf].
      + intros w pair' w' Hin2 Hw Hg. eapply switch_step; eauto.
      + intros w w' Hw Hg. eapply switch_step; eauto.
  Qed.

  (** *** All passes *)

  Theorem order_variables_ok y : order_variables ts = Ok y -> store_ok y.
  Proof.
    unfold order_variables. intros H.
    inv_bind H. apply pass1_ext in E as [E1 _]; [|apply store_ok_empty].
    inv_bind H. apply pass2_ext in E as [E2 _]; [|exact E1].
    inv_bind H. apply pass3_ext in E as [E3 _]; [|exact E2].
    apply pass4_ext in H as [E4 _]; auto.
  Qed.

  Theorem order_variables_cover y : order_variables ts = Ok y ->
    (forall k l j jp, In (k, l) (ts_Josingle ts) -> In (j, jp) l ->
       present y [j; jp; fst k; snd k] \/ present y [jp; j; snd k; fst k]) /\
    (forall s inner sp groups js j jp, In (s, inner) (ts_Jd ts) -> In (sp, groups) inner ->
       In js groups -> In (j, jp) (combinations2 js) -> covered3 j jp s y) /\
    (forall s groups js j jp, In (s, groups) (ts_Jtrack ts) -> In js groups ->
       In (j, jp) (combinations2 js) -> covered3 j jp s y) /\
    (forall s l pair, In (s, l) (ts_Jswitch ts) -> In pair l ->
       exists jp jpp sp spp, unpack2 pair = Ok (jp, jpp) /\
         departure_station4switches s jp pair ts = Ok sp /\
         departure_station4switches s jpp pair ts = Ok spp /\
         switch_covered s sp spp jp jpp y).
  Proof.
    unfold order_variables. intros H.
    inv_bind H. rename a into y1, E into P1. inv_bind H. rename a into y2, E into P2.
    inv_bind H. rename a into y3, E into P3.
    assert (X1 := pass1_ext _ _ store_ok_empty P1).
    assert (X2 := pass2_ext _ _ (proj1 X1) P2).
    assert (X3 := pass3_ext _ _ (proj1 X2) P3).
    assert (X4 := pass4_ext _ _ (proj1 X3) H).
    assert (X24 : ext y1 y) by (eapply ext_trans; [exact X2|eapply ext_trans; eauto]).
    assert (X34 : ext y2 y) by (eapply ext_trans; eauto).
    split; [|split; [|split]].
    - intros k l j jp H1 H2.
      destruct (pass1_cover _ _ k l j jp store_ok_empty P1 H1 H2); [left|right];
        (eapply ext_present; [exact X24|assumption]).
    - intros s inner sp groups js j jp H1 H2 H3 H4. eapply covered3_mono; [exact X34|].
      exact (pass2_cover _ _ s inner sp groups js j jp (proj1 X1) P2 H1 H2 H3 H4).
    - intros s groups js j jp H1 H2 H3. eapply covered3_mono; [exact X4|].
      exact (pass3_cover _ _ s groups js j jp (proj1 X2) P3 H1 H2 H3).
    - intros s l pair H1 H2. exact (pass4_cover _ _ s l pair (proj1 X3) H H1 H2).
  Qed.
End Passes.

(** ** Reading the order: complementary answers *)

Lemma get_y3_value y j jp s a :
  get_y3 y j jp s = Ok a ->
  (exists v, tpath [j; jp; one_station; s] y = Some v /\ a = aff_var v) \/
  (exists v, tpath [j; jp; one_station; s] y = None /\ tpath [jp; j; one_station; s] y = Some v /\
             a = one_minus v).
Proof.
  unfold get_y3, check_order_var_3arg. destruct (check_order_var_4arg y j jp one_station s) eqn:E.
  - intros H. inv_bind H. inversion H; subst. left. exists a0. split; auto. apply get4_tpath; auto.
  - intros H. inv_bind H. inversion H; subst. right. exists a0.
    split; [|split; auto; apply get4_tpath; auto].
    destruct (tpath [j; jp; one_station; s] y) eqn:Et; auto. apply tpath_check4 in Et. congruence.
Qed.

Lemma get_y4_value y j jp s sp a :
  get_y4_singleline y j jp s sp = Ok a ->
  (exists v, tpath [j; jp; s; sp] y = Some v /\ a = aff_var v) \/
  (exists v, tpath [j; jp; s; sp] y = None /\ tpath [jp; j; sp; s] y = Some v /\
             a = one_minus v).
Proof.
  unfold get_y4_singleline. destruct (check_order_var_4arg y j jp s sp) eqn:E.
  - intros H. inv_bind H. inversion H; subst. left. exists a0. split; auto. apply get4_tpath; auto.
  - intros H. inv_bind H. inversion H; subst. right. exists a0.
    split; [|split; auto; apply get4_tpath; auto].
    destruct (tpath [j; jp; s; sp] y) eqn:Et; auto. apply tpath_check4 in Et. congruence.
Qed.

Lemma get_in_value y j jp s a :
  get_y4_in y in_ j jp s = Ok a ->
  (exists v, tpath [in_; j; jp; s] y = Some v /\ a = aff_var v) \/
  (exists v, tpath [in_; j; jp; s] y = None /\ tpath [in_; jp; j; s] y = Some v /\
             a = one_minus v).
Proof.
  unfold get_y4_in. destruct (check_order_var_4arg y in_ j jp s) eqn:E.
  - intros H. inv_bind H. inversion H; subst. left. exists a0. split; auto. apply get4_tpath; auto.
  - intros H. inv_bind H. inversion H; subst. right. exists a0.
    split; [|split; auto; apply get4_tpath; auto].
    destruct (tpath [in_; j; jp; s] y) eqn:Et; auto. apply tpath_check4 in Et. congruence.
Qed.

(** Two readings of one decision. *)
Inductive complementary : aff -> aff -> Prop :=
| compl_l v : complementary (aff_var v) (one_minus v)
| compl_r v : complementary (one_minus v) (aff_var v).

Lemma one_minus_eval v x : eval (one_minus v) x == 1 - x (v_id v).
Proof. unfold one_minus. rewrite eval_sub, eval_const, eval_var. lra. Qed.

Lemma complementary_eval a b x : complementary a b -> eval a x + eval b x == 1.
Proof. intros H; inversion H; subst; rewrite one_minus_eval, eval_var; lra. Qed.

Lemma values_complementary y p q a b :
  store_ok y -> mirror p q ->
  ((exists v, tpath p y = Some v /\ a = aff_var v) \/
   (exists v, tpath p y = None /\ tpath q y = Some v /\ a = one_minus v)) ->
  ((exists v, tpath q y = Some v /\ b = aff_var v) \/
   (exists v, tpath q y = None /\ tpath p y = Some v /\ b = one_minus v)) ->
  complementary a b.
Proof.
  intros Hy Hm [(v & Hv & ->)|(v & Hn & Hv & ->)] [(w & Hw & ->)|(w & Hn' & Hw & ->)].
  - exfalso. eapply (so_excl _ Hy _ _ Hm); red; eauto.
  - rewrite Hv in Hw; inversion Hw; subst. constructor.
  - rewrite Hv in Hw; inversion Hw; subst. constructor.
  - congruence.
Qed.

Theorem get_y3_complementary y j jp s a b :
  store_ok y -> j <> jp -> get_y3 y j jp s = Ok a -> get_y3 y jp j s = Ok b ->
  complementary a b.
Proof.
  intros Hy Hj Ha Hb. apply get_y3_value in Ha, Hb.
  eapply values_complementary; [exact Hy| |exact Ha|exact Hb]. constructor; auto.
Qed.

Theorem get_y4_complementary y j jp s sp a b :
  store_ok y -> j <> jp -> train_name_ok j -> train_name_ok jp ->
  station_name_ok s -> station_name_ok sp ->
  get_y4_singleline y j jp s sp = Ok a -> get_y4_singleline y jp j sp s = Ok b ->
  complementary a b.
Proof.
  intros Hy Hj [N1 _] [N2 _] S1 S2 Ha Hb. apply get_y4_value in Ha, Hb.
  eapply values_complementary; [exact Hy| |exact Ha|exact Hb]. constructor; auto.
Qed.

Theorem get_in_complementary y j jp s a b :
  store_ok y -> j <> jp -> train_name_ok j -> train_name_ok jp ->
  get_y4_in y in_ j jp s = Ok a -> get_y4_in y in_ jp j s = Ok b ->
  complementary a b.
Proof.
  intros Hy Hj [_ N1] [_ N2] Ha Hb. apply get_in_value in Ha, Hb.
  eapply values_complementary; [exact Hy| |exact Ha|exact Hb]. constructor; auto.
Qed.
