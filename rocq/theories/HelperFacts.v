(** * HelperFacts: proofs of C15 and C20-C23 *)

From Coq Require Import List String ZArith QArith Bool Arith Lia Lqa.
From Verif Require Import Base Pulp Helpers LinearSolver BaseFacts Spec TreeFacts OrderVars SpecFacts
  Sim SpecTimes.
Import ListNotations.
Open Scope string_scope.
Open Scope list_scope.

(** ** Earliest departures (C15) *)

Lemma nbs_exists tt j s t : exists e, not_before_schedule tt j s t e.
Proof. eexists. apply max_opt_spec. Qed.

Lemma first_occurrence {A} `{EqDec A} (x : A) l : In x l -> exists l1 l2, l = l1 ++ x :: l2 /\ ~ In x l1.
Proof.
  intros Hin. apply lindex_in in Hin as [n Hn]. apply lindex_split in Hn as (l1 & l2 & H1 & H2 & _). eauto.
Qed.

Lemma earliest_exists ts tt j : times_given ts tt j -> forall s, on_path ts j s -> exists e, earliest ts tt j s e.
Proof.
  intros [H0 H1] s (path & Hp & Hs).
  cut (forall n l1 s l2, (List.length l1 <= n)%nat -> path = l1 ++ s :: l2 -> exists e, earliest ts tt j s e).
  { intros G. apply in_split in Hs as (l1 & l2 & E). eapply G; [|exact E]. constructor. }
  clear s Hs. induction n as [|n IH]; intros l1 s l2 Hn E.
  - assert (l1 = []) by (destruct l1; [auto|cbn in Hn; lia]). subst l1.
    destruct (H0 s) as [q Hq]; [exists l2; subst; exact Hp|].
    destruct (nbs_exists tt j s q) as [e He]. exists e. eapply earliest_init; eauto.
  - destruct (dget (joined [j; s]) (tt_init tt)) as [i|] eqn:Ei.
    { destruct (nbs_exists tt j s i) as [e He]. exists e. eapply earliest_init; [exact Ei|exact He]. }
    destruct (in_dec eq_dec s l1) as [Hin|Hin].
    { apply in_split in Hin as (m1 & m2 & ->). apply (IH m1 s (m2 ++ s :: l2)).
      - rewrite app_length in Hn. cbn in Hn. lia.
      - rewrite E, <- app_assoc. reflexivity. }
    destruct l1 as [|a l1] using rev_ind.
    { destruct (H0 s) as [q Hq]; [exists l2; subst; exact Hp|]. unfold initially in Hq. congruence. }
    clear IHl1. rewrite app_length in Hn. cbn in Hn. rewrite <- app_assoc in E. cbn in E.
    assert (HB : comes_before ts j a s) by (exists path, l1, l2; auto).
    destruct (IH l1 a (s :: l2)) as [e0 He0]; [lia|exact E|].
    destruct (H1 _ _ HB) as [[q Hq]|(r & st & Hr & Hst)].
    { unfold initially in Hq. congruence. }
    destruct (nbs_exists tt j s (e0 + r + st)) as [e He]. exists e.
    eapply earliest_next; eauto. intros i Hi. unfold initially in Hi. congruence.
Qed.

Lemma nbs_ge tt j s t e : not_before_schedule tt j s t e -> t <= e /\ forall q, scheduled tt j s q -> q <= e.
Proof.
  intros [(q & Hq & [[H1 H2]|[H1 H2]])|[Hn H]].
  - split; [lra|]. intros q' Hq'. unfold scheduled in *. assert (q' = q) by congruence; subst. lra.
  - split; [lra|]. intros q' Hq'. unfold scheduled in *. assert (q' = q) by congruence; subst. lra.
  - split; [lra|]. intros q' Hq'. exfalso. eapply Hn; eauto.
Qed.

Lemma nbs_le tt j s t e b : not_before_schedule tt j s t e -> t <= b ->
  (forall q, scheduled tt j s q -> q <= b) -> e <= b.
Proof.
  intros [(q & Hq & [[H1 H2]|[H1 H2]])|[Hn H]] Ht Hs; [lra| |lra]. specialize (Hs q Hq). lra.
Qed.

Theorem earliest_least ts tt j :
  reserved_free ts -> none_free tt -> times_given ts tt j ->
  exists f, (forall s, on_path ts j s -> earliest_dep_time (ts_Paths ts) tt j s = Ok (f s)) /\
    respects ts tt j f /\ forall g, respects ts tt j g -> forall s, on_path ts j s -> f s <= g s.
Proof.
  intros RF NF HG.
  set (f := fun s => match earliest_dep_time (ts_Paths ts) tt j s with Ok e => e | Err _ => 0 end).
  assert (Hf : forall s, on_path ts j s -> earliest_dep_time (ts_Paths ts) tt j s = Ok (f s)).
  { intros s Hs. destruct (earliest_exists ts tt j HG s Hs) as [e He].
    apply earliest_dep_time_complete in He as (e' & He' & _). unfold f. rewrite He'. reflexivity. }
  assert (HE : forall s, on_path ts j s -> earliest ts tt j s (f s)).
  { intros s Hs. eapply earliest_dep_time_sound; eauto. }
  exists f. split; [exact Hf|]. split.
  - intros s Hs. assert (E := HE s Hs). inversion E as [s' i e Hi Hb E1 E2|s' sp e0 r st e Hi Hc He Hr Hst Hb E1 E2]; subst.
    + apply nbs_ge in Hb as [H1 H2]. split; [exact H2|]. split.
      * intros q Hq. unfold initially in *. assert (q = i) by congruence; subst. exact H1.
      * intros sp r st _ Hn. exfalso. eapply Hn; eauto.
    + apply nbs_ge in Hb as [H1 H2]. split; [exact H2|]. split.
      * intros q Hq. exfalso. eapply Hi; eauto.
      * intros sp' r' st' Hc' _ Hr' Hst'. assert (sp' = sp) by (eapply comes_before_fun; eauto). subst sp'.
        unfold running, min_stop in *. assert (r' = r) by congruence. assert (st' = st) by congruence. subst.
        assert (f sp == e0).
        { eapply earliest_fun; [apply HE|exact He]. eapply before_on_path in Hc; eauto.
          destruct Hc as (path & ? & ? & ?). exists path; auto. }
        lra.
  - intros g Hg s Hs. assert (E := HE s Hs). revert Hs. generalize dependent (f s). clear -Hg RF.
    intros e E. induction E as [s i e Hi Hb|s sp e0 r st e Hi Hc He IH Hr Hst Hb]; intros Hs.
    + destruct (Hg s Hs) as (G1 & G2 & _). eapply nbs_le; eauto.
    + destruct (Hg s Hs) as (G1 & G2 & G3). eapply nbs_le; [exact Hb| |exact G1].
      assert (on_path ts j sp).
      { eapply before_on_path in Hc; eauto. destruct Hc as (path & ? & ? & ?). exists path; auto. }
      specialize (IH H). specialize (G3 sp r st Hc Hi Hr Hst). lra.
Qed.

Theorem earliest_monotone delta tt tt' S_ : initially_later delta tt tt' -> forall j s,
  match earliest_dep_time S_ tt j s, earliest_dep_time S_ tt' j s with
  | Ok e, Ok e' => e <= e' <= e + delta
  | Err x, Err x' => x = x'
  | _, _ => False
  end.
Proof.
  intros (Hp & Hs & Hsc & Hin) j s. unfold earliest_dep_time. generalize (match dget j S_ with Some path => S (List.length path) | None => O end).
  set (R := fun e e' : Q => e <= e' <= e + delta).
  assert (HM : forall k q q', R q q' -> R (max_opt (dget k (tt_schedule tt)) q) (max_opt (dget k (tt_schedule tt')) q')).
  { intros k q q' Hq. rewrite Hsc. unfold R, max_opt in *. destruct (dget k (tt_schedule tt)) as [t|]; [|exact Hq].
    destruct (qmax_spec t q) as [[? E]|[? E]], (qmax_spec t q') as [[? E']|[? E']]; rewrite E, E'; lra. }
  cut (forall fuel j s, rsim R (earliest_fuel fuel S_ tt j s) (earliest_fuel fuel S_ tt' j s)).
  { intros G n. specialize (G n j s). unfold rsim in G.
    destruct (earliest_fuel n S_ tt j s), (earliest_fuel n S_ tt' j s); auto. }
  clear j s. induction fuel as [|fuel IH]; intros j s; cbn [earliest_fuel];
    specialize (Hin (key_js j s));
    destruct (dget (key_js j s) (tt_init tt)), (dget (key_js j s) (tt_init tt')); try tauto;
    try (apply HM; exact Hin).
  - apply rsim_same; intros path _. apply rsim_same; intros sp _.
    unfold tau_pass, tau_stop. rewrite Hp, Hs. apply rsim_same; intros tp _. apply rsim_same; intros st _.
    reflexivity.
  - apply rsim_same; intros path _. apply rsim_same; intros sp _.
    unfold tau_pass, tau_stop. rewrite Hp, Hs. apply rsim_same; intros tp _. apply rsim_same; intros st _.
    eapply rsim_bind; [apply IH|]. intros e e' He. apply HM. unfold R in *. lra.
Qed.

(** ** Pair predicates (C20) *)

Lemma occurs_irrefl a l : occurs_as_pair a a l = false.
Proof. destruct (occurs_as_pair a a l) eqn:E; [|reflexivity]. apply occurs_as_pair_true in E as [E _]. congruence. Qed.

Lemma not_same_sym j jp ts : not_the_same_rolling_stock j jp ts = not_the_same_rolling_stock jp j ts.
Proof.
  unfold not_the_same_rolling_stock. f_equal. induction (ts_Jround ts) as [|[s l] r IH]; [reflexivity|].
  cbn [existsb]. rewrite IH, occurs_as_pair_sym. reflexivity.
Qed.

Lemma not_same_irrefl j ts : not_the_same_rolling_stock j j ts = true.
Proof.
  unfold not_the_same_rolling_stock. apply negb_true_iff.
  induction (ts_Jround ts) as [|[s l] r IH]; [reflexivity|].
  cbn [existsb]. rewrite IH, occurs_irrefl. reflexivity.
Qed.

Lemma can_MO_sym j jp s ts b : can_MO_on_line j jp s ts = Ok b -> can_MO_on_line jp j s ts = Ok b.
Proof.
  unfold can_MO_on_line. intros H.
  destruct (dlookup j (ts_Paths ts)) as [pj|] eqn:E1; [|discriminate]. cbn [bind] in *.
  destruct (previous_station pj s) as [sp|] eqn:E2; [|discriminate]. cbn [bind] in *.
  destruct (dlookup jp (ts_Paths ts)) as [pjp|] eqn:E3; [|discriminate]. cbn [bind] in *.
  destruct (previous_station pjp s) as [spp|] eqn:E4; [|discriminate]. cbn [bind] in *.
  try rewrite E1. cbn [bind]. try rewrite E2. cbn [bind].
  destruct (ts_Jd ts) as [|kv r] eqn:EJ; [exact H|]. rewrite orb_comm.
  destruct (is_none sp || is_none spp); [exact H|].
  destruct (eqb sp spp) eqn:Ee; cbn [negb] in *.
  - apply eqb_eq in Ee; subst spp. replace (eqb sp sp) with true by (symmetry; apply eqb_refl).
    cbn [negb]. destruct (dlookup sp (kv :: r)) as [inner|]; [|discriminate]. cbn [bind] in *.
    destruct (dlookup s inner) as [groups|]; [|discriminate]. cbn [bind] in *.
    rewrite occurs_as_pair_sym. exact H.
  - replace (eqb spp sp) with false; [exact H|]. rewrite eqb_sym. symmetry. exact Ee.
Qed.

Lemma entering_sym ts s j jp : entering_via_same_switches ts s j jp = entering_via_same_switches ts s jp j.
Proof.
  unfold entering_via_same_switches. destruct (dget s (ts_Jswitch ts)) as [v|]; [|reflexivity].
  induction v as [|e v IH]; [reflexivity|]. cbn [existsb]. rewrite IH. f_equal.
  destruct (dget j e), (dget jp e); try reflexivity. apply andb_comm.
Qed.

(** ** Turnarounds (C21) *)

Lemma nodup_fst_unique {A B} (l : list (A * B)) a b c :
  NoDup (map fst l) -> In (a, b) l -> In (a, c) l -> b = c.
Proof.
  induction l as [|[x y] l IH]; intros ND H1 H2; [destruct H1|]. cbn in ND. inversion ND; subst.
  destruct H1 as [H1|H1], H2 as [H2|H2]; try congruence.
  - inversion H1; subst. exfalso. apply H3. apply (in_map fst) in H2. exact H2.
  - inversion H2; subst. exfalso. apply H3. apply (in_map fst) in H1. exact H1.
  - apply IH; auto.
Qed.

Lemma nodup_snd_unique {A B} (l : list (A * B)) a b c :
  NoDup (map snd l) -> In (b, a) l -> In (c, a) l -> b = c.
Proof.
  induction l as [|[x y] l IH]; intros ND H1 H2; [destruct H1|]. cbn in ND. inversion ND; subst.
  destruct H1 as [H1|H1], H2 as [H2|H2]; try congruence.
  - inversion H1; subst. exfalso. apply H3. apply (in_map snd) in H2. exact H2.
  - inversion H2; subst. exfalso. apply H3. apply (in_map snd) in H1. exact H1.
  - apply IH; auto.
Qed.

Theorem turnaround_lookups ts s pairs :
  dget s (ts_Jround ts) = Some pairs -> NoDup (map fst pairs) -> NoDup (map snd pairs) ->
  ~ In PNone (map fst pairs) -> ~ In PNone (map snd pairs) ->
  forall j jp, j <> PNone -> jp <> PNone ->
    (subsequent_train_at_Jround ts j s = jp <-> In (j, jp) pairs) /\
    (previous_train_from_Jround ts jp s = j <-> In (j, jp) pairs).
Proof.
  intros Hs N1 N2 P1 P2 j jp Hj Hjp. unfold subsequent_train_at_Jround, previous_train_from_Jround. rewrite Hs.
  split.
  - destruct (find_first_fst_spec j pairs) as [(jn & l1 & l2 & Hp & Hn & Hf)|[Hn Hf]]; rewrite Hf.
    + assert (In (j, jn) pairs) by (rewrite Hp; apply in_app_iff; right; left; reflexivity).
      split; [intros <-; exact H|]. intros H'. eapply nodup_fst_unique; eauto.
    + split; [congruence|]. intros H. exfalso. apply Hn. apply (in_map fst) in H. exact H.
  - destruct (find_first_snd_spec jp pairs) as [(jn & l1 & l2 & Hp & Hn & Hf)|[Hn Hf]]; rewrite Hf.
    + assert (In (jn, jp) pairs) by (rewrite Hp; apply in_app_iff; right; left; reflexivity).
      split; [intros <-; exact H|]. intros H'. eapply nodup_snd_unique; eauto.
    + split; [congruence|]. intros H. exfalso. apply Hn. apply (in_map snd) in H. exact H.
Qed.

(** ** Neighbours on a path (C22) *)

Lemma subsequent_station_spec path s sp :
  subsequent_station path s = Ok sp ->
  (exists l1, path = l1 ++ [s] /\ ~ In s l1 /\ sp = PNone) \/
  (exists l1 l2, path = l1 ++ s :: sp :: l2 /\ ~ In s l1).
Proof.
  unfold subsequent_station. intros H. inv_bind H. apply lindex_split in E as (l1 & l2 & -> & Hn & <-).
  rewrite app_length in H. cbn [List.length] in H. destruct (Nat.eqb_spec (List.length l1) (List.length l1 + S (List.length l2) - 1)).
  - destruct l2; cbn in e; [|lia]. inversion H; subst. left. eauto.
  - right. unfold lnth in H. rewrite nth_error_app2 in H by lia.
    replace (List.length l1 + 1 - List.length l1)%nat with 1%nat in H by lia. cbn in H.
    destruct l2 as [|x l2]; [discriminate|]. inversion H; subst. eauto.
Qed.

Lemma subsequent_station_mid l1 l2 s sp :
  ~ In s l1 -> subsequent_station (l1 ++ s :: sp :: l2) s = Ok sp.
Proof.
  intros Hn. unfold subsequent_station. rewrite lindex_app by exact Hn. cbn [bind].
  rewrite app_length. cbn [List.length].
  destruct (Nat.eqb_spec (List.length l1) (List.length l1 + S (S (List.length l2)) - 1)); [lia|].
  unfold lnth. rewrite nth_error_app2 by lia.
  replace (List.length l1 + 1 - List.length l1)%nat with 1%nat by lia. reflexivity.
Qed.

Lemma subsequent_station_last l1 s : ~ In s l1 -> subsequent_station (l1 ++ [s]) s = Ok PNone.
Proof.
  intros Hn. unfold subsequent_station. rewrite lindex_app by exact Hn. cbn [bind].
  rewrite app_length. cbn [List.length]. destruct (Nat.eqb_spec (List.length l1) (List.length l1 + 1 - 1)); [reflexivity|lia].
Qed.

Theorem neighbours path : NoDup path -> ~ In PNone path ->
  (forall sp s, sp <> PNone -> s <> PNone ->
     (previous_station path s = Ok sp <-> exists l1 l2, path = l1 ++ sp :: s :: l2) /\
     (subsequent_station path sp = Ok s <-> exists l1 l2, path = l1 ++ sp :: s :: l2)) /\
  (forall s, previous_station path s = Ok PNone <-> exists l, path = s :: l) /\
  (forall s, subsequent_station path s = Ok PNone <-> exists l, path = l ++ [s]).
Proof.
  intros ND HN.
  assert (D : forall l1 (a : pv) l2, path = l1 ++ a :: l2 -> ~ In a l1).
  { intros l1 a l2 ->. intros Hin. apply NoDup_remove_2 in ND. apply ND. apply in_app_iff. auto. }
  split; [|split].
  - intros sp s Hsp Hs. split; split.
    + intros H. apply previous_station_spec in H as [(l & -> & ->)|(l1 & l2 & -> & _)]; [congruence|eauto].
    + intros (l1 & l2 & E). rewrite E. apply (previous_station_before _ l1 l2); [reflexivity|].
      apply (D (l1 ++ [sp]) s l2). rewrite <- app_assoc. exact E.
    + intros H. apply subsequent_station_spec in H as [(l & _ & _ & ->)|(l1 & l2 & -> & _)]; [congruence|eauto].
    + intros (l1 & l2 & E). rewrite E. apply subsequent_station_mid. eapply D; eauto.
  - intros s. split.
    + intros H. apply previous_station_spec in H as [(l & -> & _)|(l1 & l2 & -> & _)]; [eauto|].
      exfalso. apply HN. apply in_app_iff. right. left. reflexivity.
    + intros (l & ->). apply previous_station_first.
  - intros s. split.
    + intros H. apply subsequent_station_spec in H as [(l & -> & _)|(l1 & l2 & -> & _)]; [eauto|].
      exfalso. apply HN. apply in_app_iff. right. right. left. reflexivity.
    + intros (l & E). rewrite E. apply subsequent_station_last. eapply (D l s []). exact E.
Qed.
