(** * SpecFacts: the model's lookups agree with the specification vocabulary *)

From Coq Require Import List String ZArith QArith Bool Arith Lia Lqa.
From Verif Require Import Base Pulp Helpers LinearSolver BaseFacts Spec TreeFacts OrderVars DelayVars.
Import ListNotations.
Open Scope string_scope.
Open Scope list_scope.

(** ** Paths *)

Lemma lindex_split {A} `{EqDec A} (x : A) l n :
  lindex x l = Ok n -> exists l1 l2, l = l1 ++ x :: l2 /\ ~ In x l1 /\ List.length l1 = n.
Proof.
  revert n; induction l as [|y l IH]; simpl; intros n Hn; [discriminate|].
  destruct (eq_dec x y) as [->|Hne].
  - inversion Hn; subst. exists [], l. auto.
  - inv_bind Hn. inversion Hn; subst. destruct (IH _ E) as (l1 & l2 & -> & Hx & <-).
    exists (y :: l1), l2. split; [reflexivity|]. split; [|reflexivity].
    intros [->|Hin]; [congruence|contradiction].
Qed.

Lemma lindex_app {A} `{EqDec A} (x : A) l1 l2 :
  ~ In x l1 -> lindex x (l1 ++ x :: l2) = Ok (List.length l1).
Proof.
  induction l1 as [|y l1 IH]; simpl; intros Hx.
  - destruct (eq_dec x x); congruence.
  - destruct (eq_dec x y) as [->|Hne]; [exfalso; auto|]. rewrite IH by tauto. reflexivity.
Qed.

Lemma previous_station_spec path s sp :
  previous_station path s = Ok sp ->
  (exists l, path = s :: l /\ sp = PNone) \/
  (exists l1 l2, path = l1 ++ sp :: s :: l2 /\ ~ In s (l1 ++ [sp])).
Proof.
  unfold previous_station. intros H. inv_bind H.
  destruct (lindex_split _ _ _ E) as (l1 & l2 & -> & Hs & <-).
  destruct l1 as [|z l1] using rev_ind; simpl in H.
  - inversion H; subst. left. exists l2. auto.
  - right. clear IHl1. rewrite app_length in H. simpl in H.
    replace (Nat.eqb (List.length l1 + 1) 0) with false in H by (symmetry; apply Nat.eqb_neq; lia).
    unfold lnth in H. replace (List.length l1 + 1 - 1)%nat with (List.length l1) in H by lia.
    rewrite <- app_assoc in H. rewrite nth_error_app2 in H by lia.
    rewrite Nat.sub_diag in H. simpl in H. inversion H; subst.
    exists l1, l2. split; [rewrite <- app_assoc; reflexivity|exact Hs].
Qed.

Lemma previous_station_before path l1 l2 sp s :
  path = l1 ++ sp :: s :: l2 -> ~ In s (l1 ++ [sp]) -> previous_station path s = Ok sp.
Proof.
  intros -> Hs. unfold previous_station.
  replace (l1 ++ sp :: s :: l2) with ((l1 ++ [sp]) ++ s :: l2) by (rewrite <- app_assoc; reflexivity).
  rewrite lindex_app by exact Hs. cbn [bind]. rewrite app_length. simpl.
  replace (Nat.eqb (List.length l1 + 1) 0) with false by (symmetry; apply Nat.eqb_neq; lia).
  unfold lnth. replace (List.length l1 + 1 - 1)%nat with (List.length l1) by lia.
  rewrite <- app_assoc. rewrite nth_error_app2 by lia. rewrite Nat.sub_diag. reflexivity.
Qed.

Lemma previous_station_first s l : previous_station (s :: l) s = Ok PNone.
Proof. unfold previous_station. simpl. destruct (eq_dec s s); [reflexivity|congruence]. Qed.

Lemma comes_before_prev ts j sp s :
  comes_before ts j sp s <->
  exists path, dget j (ts_Paths ts) = Some path /\ previous_station path s = Ok sp /\
    ~ (exists l, path = s :: l).
Proof.
  split.
  - intros (path & l1 & l2 & Hp & -> & Hs). exists (l1 ++ sp :: s :: l2). split; [exact Hp|].
    split; [eapply previous_station_before; eauto|].
    intros (l & Hl). apply Hs. destruct l1; simpl in *; inversion Hl; subst; auto.
  - intros (path & Hp & Hprev & Hn). apply previous_station_spec in Hprev as [(l & -> & ->)|H].
    + exfalso; eauto.
    + destruct H as (l1 & l2 & -> & Hs). exists (l1 ++ sp :: s :: l2), l1, l2. auto.
Qed.

Lemma comes_before_fun ts j s sp sp' :
  comes_before ts j sp s -> comes_before ts j sp' s -> sp = sp'.
Proof.
  rewrite !comes_before_prev. intros (p & H1 & H2 & _) (p' & H1' & H2' & _). congruence.
Qed.

Lemma comes_before_not_start ts j sp s : comes_before ts j sp s -> ~ starts_at ts j s.
Proof.
  rewrite comes_before_prev. intros (p & H1 & _ & H2) (l & Hl). apply H2. exists l. congruence.
Qed.

Section Named.
  Variable ts : train_sets.
  Hypothesis RF : reserved_free ts.

  Lemma path_none_free j path s : dget j (ts_Paths ts) = Some path -> In s path -> s <> PNone.
  Proof. intros Hp Hs. apply RF. eapply mention_path; eauto. Qed.

  Lemma prev_cases j path s sp :
    dget j (ts_Paths ts) = Some path -> previous_station path s = Ok sp ->
    (sp = PNone /\ starts_at ts j s) \/ (sp <> PNone /\ comes_before ts j sp s).
  Proof.
    intros Hp Hprev. assert (Hprev' := Hprev).
    apply previous_station_spec in Hprev as [(l & -> & ->)|(l1 & l2 & -> & Hs)].
    - left. split; auto. exists l; auto.
    - right. split; [|exists (l1 ++ sp :: s :: l2), l1, l2; auto].
      eapply path_none_free; eauto. apply in_app_iff. simpl. auto.
  Qed.

  Lemma before_on_path j sp s : comes_before ts j sp s ->
    exists path, dget j (ts_Paths ts) = Some path /\ In sp path /\ In s path.
  Proof.
    intros (path & l1 & l2 & Hp & -> & _). eexists; split; [exact Hp|].
    rewrite !in_app_iff. simpl. auto.
  Qed.

  Lemma before_not_none j sp s : comes_before ts j sp s -> sp <> PNone.
  Proof. intros H. apply before_on_path in H as (path & Hp & Hs & _). eapply path_none_free; eauto. Qed.

  (** ** Earliest departures *)

  Variable tt : timetable.
  Hypothesis NF : none_free tt.

  Lemma max_opt_spec j s t :
    not_before_schedule tt j s t (max_opt (dget (key_js j s) (tt_schedule tt)) t).
  Proof.
    unfold not_before_schedule, scheduled, joined. cbn [map join_us]. unfold key_js.
    destruct (dget _ (tt_schedule tt)) as [q|]; simpl.
    - left. exists q. split; auto. destruct (qmax_spec q t) as [[H1 H2]|[H1 H2]]; rewrite H2.
      + left. split; [exact H1|reflexivity].
      + right. split; [lra|reflexivity].
    - right. split; [discriminate|reflexivity].
  Qed.

  Lemma edt_none_fails fuel j e : earliest_fuel fuel (ts_Paths ts) tt j PNone = Ok e -> False.
  Proof.
    intros H. destruct fuel; simpl in H.
    - destruct (dget (key_js j PNone) (tt_init tt)) eqn:Ei.
      + apply (NF j q). exact Ei.
      + inv_bind H. inv_bind H. apply dlookup_ok in E.
        apply previous_station_in in E0 as [Hin _]. eapply path_none_free; eauto.
    - destruct (dget (key_js j PNone) (tt_init tt)) eqn:Ei.
      + apply (NF j q). exact Ei.
      + inv_bind H. inv_bind H. apply dlookup_ok in E.
        apply previous_station_in in E0 as [Hin _]. eapply path_none_free; eauto.
  Qed.

  Lemma earliest_fuel_sound fuel : forall j s e,
    earliest_fuel fuel (ts_Paths ts) tt j s = Ok e -> earliest ts tt j s e.
  Proof.
    induction fuel as [|fuel IH]; intros j s e H; simpl in H.
    - destruct (dget (key_js j s) (tt_init tt)) eqn:Ei.
      + inversion H; subst. eapply earliest_init; [exact Ei|apply max_opt_spec].
      + inv_bind H. inv_bind H. inv_bind H. inv_bind H. discriminate.
    - destruct (dget (key_js j s) (tt_init tt)) eqn:Ei.
      + inversion H; subst. eapply earliest_init; [exact Ei|apply max_opt_spec].
      + inv_bind H. inv_bind H. inv_bind H. inv_bind H. inv_bind H. inversion H; subst.
        apply dlookup_ok in E. destruct (prev_cases j a s a0 E E0) as [[-> _]|[_ Hb]].
        { exfalso. eapply edt_none_fails; eauto. }
        eapply earliest_next; [|exact Hb|apply IH; exact E3| | |apply max_opt_spec].
        * intros i Hi. unfold initially, joined in Hi. cbn [map join_us] in Hi.
          unfold key_js in Ei. congruence.
        * apply dlookup_ok. exact E1.
        * apply dlookup_ok. exact E2.
  Qed.

  Theorem earliest_dep_time_sound j s e :
    earliest_dep_time (ts_Paths ts) tt j s = Ok e -> earliest ts tt j s e.
  Proof. apply earliest_fuel_sound. Qed.

  Lemma edt_not_none j e : earliest_dep_time (ts_Paths ts) tt j PNone = Ok e -> False.
  Proof. apply edt_none_fails. Qed.
End Named.

Lemma not_before_schedule_fun tt j s t t' e e' :
  t == t' -> not_before_schedule tt j s t e -> not_before_schedule tt j s t' e' -> e == e'.
Proof.
  unfold not_before_schedule, scheduled. intros Ht H H'.
  destruct H as [(q & Hq & H)|[Hn H]]; destruct H' as [(q' & Hq' & H')|[Hn' H']].
  - rewrite Hq in Hq'; inversion Hq'; subst q'.
    destruct H as [[? ?]|[? ?]], H' as [[? ?]|[? ?]]; lra.
  - exfalso; eapply Hn'; eauto.
  - exfalso; eapply Hn; eauto.
  - lra.
Qed.

(** The earliest departure is unique. *)
Theorem earliest_fun ts tt j s e e' :
  earliest ts tt j s e -> earliest ts tt j s e' -> e == e'.
Proof.
  intros H; revert e'; induction H as [s i e Hi Hb|s sp e0 r st e Hi Hc He IH Hr Hst Hb]; intros e' H'.
  - inversion H' as [s' i' e1 Hi' Hb'|s' sp' e0' r' st' e1 Hi' Hc' He' Hr' Hst' Hb']; subst.
    + unfold initially in *. rewrite Hi in Hi'; inversion Hi'; subst.
      eapply not_before_schedule_fun; [|exact Hb|exact Hb']. reflexivity.
    + exfalso; eapply Hi'; eauto.
  - inversion H' as [s' i' e1 Hi' Hb'|s' sp' e0' r' st' e1 Hi' Hc' He' Hr' Hst' Hb']; subst.
    + exfalso; eapply Hi; eauto.
    + assert (sp' = sp) by (eapply comes_before_fun; eauto). subst sp'.
      unfold running, min_stop in *. rewrite Hr in Hr'; inversion Hr'; subst.
      rewrite Hst in Hst'; inversion Hst'; subst.
      eapply not_before_schedule_fun; [|exact Hb|exact Hb'].
      rewrite (IH _ He'). reflexivity.
Qed.

(** ** Rolling stock *)

(** Conversely, whenever an earliest departure exists the program finds it. *)
Lemma max_opt_fun tt j s t t' e :
  t == t' -> not_before_schedule tt j s t e -> e == max_opt (dget (key_js j s) (tt_schedule tt)) t'.
Proof.
  intros Ht H. eapply not_before_schedule_fun; [exact Ht|exact H|]. apply max_opt_spec.
Qed.

Lemma lindex_le {A} `{EqDec A} (x : A) l1 l2 n :
  lindex x (l1 ++ x :: l2) = Ok n -> (n <= List.length l1)%nat.
Proof.
  revert n; induction l1 as [|y l1 IH]; intros n; simpl.
  - destruct (eq_dec x x); [|congruence]. intros E; inversion E; lia.
  - destruct (eq_dec x y); [intros E; inversion E; lia|].
    destruct (lindex x (l1 ++ x :: l2)) eqn:El; simpl; [|discriminate].
    intros E; inversion E; subst. specialize (IH a eq_refl). lia.
Qed.

Lemma earliest_fuel_complete ts tt j s e :
  earliest ts tt j s e ->
  forall fuel, (forall path n, dget j (ts_Paths ts) = Some path -> lindex s path = Ok n -> (n < fuel)%nat) ->
  exists e', earliest_fuel fuel (ts_Paths ts) tt j s = Ok e' /\ e == e'.
Proof.
  induction 1 as [s i e Hi Hb|s sp e0 r st e Hi Hc He IH Hr Hst Hb]; intros fuel HF.
  - unfold initially in Hi. change (joined [j; s]) with (key_js j s) in Hi.
    exists (max_opt (dget (key_js j s) (tt_schedule tt)) i).
    split; [|eapply max_opt_fun; [reflexivity|exact Hb]].
    destruct fuel; cbn [earliest_fuel]; rewrite Hi; reflexivity.
  - destruct (proj1 (comes_before_prev ts j sp s) Hc) as (path & Hpath & Hprev & _).
    destruct Hc as (path' & l1 & l2 & Hpath' & -> & Hs).
    assert (path = l1 ++ sp :: s :: l2) by congruence. subst path. clear Hpath'.
    assert (Hidx : lindex s (l1 ++ sp :: s :: l2) = Ok (S (List.length l1))).
    { replace (l1 ++ sp :: s :: l2) with ((l1 ++ [sp]) ++ s :: l2) by (rewrite <- app_assoc; reflexivity).
      rewrite lindex_app by exact Hs. rewrite app_length. simpl. f_equal. lia. }
    specialize (HF _ _ Hpath Hidx) as HF'. destruct fuel as [|fuel]; [lia|].
    destruct (IH fuel) as (e' & E & EE).
    { intros path n Hp' Hn. rewrite Hpath in Hp'. inversion Hp'; subst path.
      apply lindex_le in Hn. lia. }
    exists (max_opt (dget (key_js j s) (tt_schedule tt)) (e' + r + st)). split.
    + cbn [earliest_fuel]. assert (HN : dget (key_js j s) (tt_init tt) = None).
      { destruct (dget (key_js j s) (tt_init tt)) eqn:D; [|reflexivity]. exfalso. exact (Hi _ D). }
      rewrite HN. unfold dlookup. rewrite Hpath. cbn [bind]. rewrite Hprev. cbn [bind].
      unfold tau_pass, tau_stop, dlookup. unfold running, min_stop in *.
      change (joined [j; sp; s]) with (key_pass j sp s) in Hr.
      change (joined [j; s]) with (key_js j s) in Hst. rewrite Hr, Hst. cbn [bind]. rewrite E. reflexivity.
    + eapply max_opt_fun; [|exact Hb]. lra.
Qed.

Theorem earliest_dep_time_complete ts tt j s e :
  earliest ts tt j s e -> exists e', earliest_dep_time (ts_Paths ts) tt j s = Ok e' /\ e == e'.
Proof.
  intros H. eapply earliest_fuel_complete; [exact H|].
  intros path n Hp Hn. rewrite Hp.
  destruct (lindex_split _ _ _ Hn) as (l1 & l2 & -> & _ & <-). rewrite app_length. simpl. lia.
Qed.

Lemma find_first_fst_spec j pairs :
  (exists jn l1 l2, pairs = l1 ++ (j, jn) :: l2 /\ ~ In j (map fst l1) /\ find_first_fst j pairs = jn) \/
  (~ In j (map fst pairs) /\ find_first_fst j pairs = PNone).
Proof.
  induction pairs as [|[a b] l IH]; simpl; [right; auto|].
  destruct (eqb j a) eqn:E.
  - apply eqb_eq in E; subst. left. exists b, [], l. auto.
  - apply eqb_neq in E. destruct IH as [(jn & l1 & l2 & -> & Hn & Hf)|[Hn Hf]].
    + left. exists jn, ((a, b) :: l1), l2. split; [reflexivity|]. split; [|exact Hf].
      simpl. intros [?|?]; congruence.
    + right. split; [|exact Hf]. intros [?|?]; congruence.
Qed.

Lemma find_first_snd_spec j pairs :
  (exists jr l1 l2, pairs = l1 ++ (jr, j) :: l2 /\ ~ In j (map snd l1) /\ find_first_snd j pairs = jr) \/
  (~ In j (map snd pairs) /\ find_first_snd j pairs = PNone).
Proof.
  induction pairs as [|[a b] l IH]; simpl; [right; auto|].
  destruct (eqb j b) eqn:E.
  - apply eqb_eq in E; subst. left. exists a, [], l. auto.
  - apply eqb_neq in E. destruct IH as [(jn & l1 & l2 & -> & Hn & Hf)|[Hn Hf]].
    + left. exists jn, ((a, b) :: l1), l2. split; [reflexivity|]. split; [|exact Hf].
      simpl. intros [?|?]; congruence.
    + right. split; [|exact Hf]. intros [?|?]; congruence.
Qed.

Lemma split_unique_fst (j a b : pv) (l1 l2 m1 m2 : list (pv * pv)) :
  l1 ++ (j, a) :: l2 = m1 ++ (j, b) :: m2 -> ~ In j (map fst l1) -> ~ In j (map fst m1) -> a = b.
Proof.
  revert m1; induction l1 as [|[c d] l1 IH]; intros [|[c' d'] m1] H H1 H2; simpl in *; inversion H; subst.
  - reflexivity.
  - exfalso; auto.
  - exfalso; auto.
  - eapply IH; eauto.
Qed.

Lemma split_unique_snd (j a b : pv) (l1 l2 m1 m2 : list (pv * pv)) :
  l1 ++ (a, j) :: l2 = m1 ++ (b, j) :: m2 -> ~ In j (map snd l1) -> ~ In j (map snd m1) -> a = b.
Proof.
  revert m1; induction l1 as [|[c d] l1 IH]; intros [|[c' d'] m1] H H1 H2; simpl in *; inversion H; subst.
  - reflexivity.
  - exfalso; auto.
  - exfalso; auto.
  - eapply IH; eauto.
Qed.

Lemma continues_as_fun ts s j a b : continues_as ts s j a -> continues_as ts s j b -> a = b.
Proof.
  intros (l1 & l2 & H1 & H2) (m1 & m2 & H3 & H4). rewrite H1 in H3. inversion H3.
  eapply split_unique_fst; eauto.
Qed.

Lemma taken_from_fun ts s j a b : taken_from ts s a j -> taken_from ts s b j -> a = b.
Proof.
  intros (l1 & l2 & H1 & H2) (m1 & m2 & H3 & H4). rewrite H1 in H3. inversion H3.
  eapply split_unique_snd; eauto.
Qed.

Section Rolling.
  Variable ts : train_sets.
  Hypothesis RF : reserved_free ts.

  Lemma continues_as_mention s j jn : continues_as ts s j jn ->
    In j (mentioned_trains ts) /\ In jn (mentioned_trains ts) /\ In s (mentioned_stations ts).
  Proof.
    intros (l1 & l2 & H & _). apply dget_in in H. eapply mention_round; eauto.
    apply in_app_iff; simpl; auto.
  Qed.

  Lemma taken_from_mention s jr j : taken_from ts s jr j ->
    In jr (mentioned_trains ts) /\ In j (mentioned_trains ts) /\ In s (mentioned_stations ts).
  Proof.
    intros (l1 & l2 & H & _). apply dget_in in H. eapply mention_round; eauto.
    apply in_app_iff; simpl; auto.
  Qed.

  Lemma subsequent_train_spec j s :
    (subsequent_train_at_Jround ts j s <> PNone /\
     continues_as ts s j (subsequent_train_at_Jround ts j s)) \/
    (subsequent_train_at_Jround ts j s = PNone /\ forall jn, ~ continues_as ts s j jn).
  Proof.
    unfold subsequent_train_at_Jround. destruct (dget s (ts_Jround ts)) as [pairs|] eqn:E.
    - destruct (find_first_fst_spec j pairs) as [(jn & l1 & l2 & Hp & Hn & Hf)|[Hn Hf]]; rewrite Hf.
      + left. assert (HC : continues_as ts s j jn) by (exists l1, l2; subst pairs; auto).
        split; [|exact HC]. apply continues_as_mention in HC as (_ & H & _). apply RF in H. tauto.
      + right. split; auto. intros jn (l1 & l2 & H & _). rewrite E in H. inversion H; subst.
        apply Hn. rewrite map_app. apply in_app_iff. simpl. auto.
    - right. split; auto. intros jn (l1 & l2 & H & _). congruence.
  Qed.

  Lemma previous_train_spec j s :
    (previous_train_from_Jround ts j s <> PNone /\
     taken_from ts s (previous_train_from_Jround ts j s) j) \/
    (previous_train_from_Jround ts j s = PNone /\ forall jr, ~ taken_from ts s jr j).
  Proof.
    unfold previous_train_from_Jround. destruct (dget s (ts_Jround ts)) as [pairs|] eqn:E.
    - destruct (find_first_snd_spec j pairs) as [(jn & l1 & l2 & Hp & Hn & Hf)|[Hn Hf]]; rewrite Hf.
      + left. assert (HC : taken_from ts s jn j) by (exists l1, l2; subst pairs; auto).
        split; [|exact HC]. apply taken_from_mention in HC as (H & _). apply RF in H. tauto.
      + right. split; auto. intros jn (l1 & l2 & H & _). rewrite E in H. inversion H; subst.
        apply Hn. rewrite map_app. apply in_app_iff. simpl. auto.
    - right. split; auto. intros jn (l1 & l2 & H & _). congruence.
  Qed.
End Rolling.

Lemma skip_station_spec j s ts : skip_station j s ts = true <-> skipped ts j s.
Proof.
  unfold skip_station, skipped. destruct (ts_skip ts) as [sk|].
  - destruct (dget j sk) as [s'|] eqn:E.
    + rewrite eqb_true. split.
      * intros ->. exists sk; auto.
      * intros (sk' & H & H'). inversion H; subst. congruence.
    + split; [discriminate|]. intros (sk' & H & H'). inversion H; subst. congruence.
  - split; [discriminate|]. intros (sk' & H & _). discriminate.
Qed.

Lemma has_delay_decided ts j s : reserved_free ts -> (has_delay ts j s <-> decided ts j s).
Proof.
  intros RF. unfold has_delay, decided. split.
  - intros (Hj & path & Hp & Hs & H1 & H2). split; [exact Hj|]. split; [eauto|]. split.
    + intros H. apply skip_station_spec in H. congruence.
    + intros [jn H]. destruct (subsequent_train_spec ts RF j s) as [[Hn _]|[_ Hn]]; [congruence|].
      eapply Hn; eauto.
  - intros (Hj & (path & Hp & Hs) & H1 & H2). split; [exact Hj|]. exists path. repeat split; auto.
    + destruct (skip_station j s ts) eqn:E; auto. apply skip_station_spec in E. contradiction.
    + destruct (subsequent_train_spec ts RF j s) as [[_ H]|[H _]]; [|exact H].
      exfalso. apply H2. eauto.
Qed.

Lemma not_same_rolling_spec j jp ts :
  not_the_same_rolling_stock j jp ts = true <-> ~ same_rolling_stock ts j jp.
Proof.
  unfold not_the_same_rolling_stock. rewrite negb_true_iff.
  rewrite <- not_true_iff_false, existsb_exists.
  assert (HO : forall l, occurs_as_pair j jp (map (fun p : pv * pv => [fst p; snd p]) l) = true <->
             j <> jp /\ (In (j, jp) l \/ In (jp, j) l)).
  { induction l as [|[a b] l IH]; cbn [map occurs_as_pair In].
    - split; [discriminate|]. intros [_ [[]|[]]].
    - destruct (lmem j [fst (a, b); snd (a, b)] && lmem jp [fst (a, b); snd (a, b)] && negb (eqb j jp)) eqn:E.
      + split; auto. intros _. rewrite !andb_true_iff, negb_true_iff, !lmem_true in E.
        destruct E as [[E1 E2] E3]. apply eqb_neq in E3. split; auto. simpl in E1, E2.
        destruct E1 as [<-|[<-|[]]], E2 as [<-|[<-|[]]]; try congruence; auto.
      + rewrite IH. split; [tauto|]. intros [Hne H]. split; auto.
        assert (Hb : forall u v : bool, u && v && negb (eqb j jp) = false -> eqb j jp = false -> u = true -> v = true -> False).
        { intros u v. destruct u, v, (eqb j jp); simpl; congruence. }
        assert (Ej : eqb j jp = false) by (apply eqb_false; auto).
        destruct H as [[Heq|H]|[Heq|H]]; auto; inversion Heq; subst; exfalso;
          apply (Hb _ _ E Ej); apply lmem_true; simpl; auto. }
  split.
  - intros H [Hne (s & pairs & Hin & Hp)]. apply H. exists (s, pairs). split; auto. simpl.
    apply HO. auto.
  - intros H [[s pairs] [Hin Hp]]. simpl in Hp. apply HO in Hp as [Hne Hp]. apply H.
    split; auto. exists s, pairs. auto.
Qed.

Lemma listed_combinations {A} (l : list A) a b : listed l a b <-> In (a, b) (combinations2 l).
Proof. unfold listed. rewrite combinations2_in. reflexivity. Qed.

Lemma occurs_as_pair_true a b l :
  occurs_as_pair a b l = true <-> a <> b /\ exists v, In v l /\ In a v /\ In b v.
Proof.
  induction l as [|v l IH]; cbn [occurs_as_pair].
  - split; [discriminate|]. intros [_ (v & [] & _)].
  - destruct (lmem a v && lmem b v && negb (eqb a b)) eqn:E.
    + rewrite !andb_true_iff, negb_true_iff, !lmem_true in E. destruct E as [[E1 E2] E3].
      apply eqb_neq in E3. split; auto. intros _. split; auto. exists v; simpl; auto.
    + rewrite IH. split.
      * intros [Hn (w & Hw & H)]. split; auto. exists w; simpl; auto.
      * intros [Hn (w & [<-|Hw] & H1 & H2)]; [|split; eauto].
        exfalso. apply lmem_true in H1, H2. rewrite H1, H2 in E.
        assert (eqb a b = false) by (apply eqb_false; auto). rewrite H in E. discriminate.
Qed.

Lemma occurs_as_pair_sym a b l : occurs_as_pair a b l = occurs_as_pair b a l.
Proof.
  apply eq_true_iff_eq. rewrite !occurs_as_pair_true.
  split; intros [Hn (v & H)]; split; auto; exists v; tauto.
Qed.
