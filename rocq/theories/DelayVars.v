(** * DelayVars: which delay variables exist *)

From Coq Require Import List String ZArith QArith Bool Arith Lia.
From Verif Require Import Base Pulp Helpers LinearSolver BaseFacts Spec TreeFacts.
Import ListNotations.
Open Scope string_scope.
Open Scope list_scope.

(** The solver-level description of the pairs that get a delay variable. *)
Definition has_delay (ts : train_sets) (j s : pv) : Prop :=
  In j (ts_J ts) /\ exists path, dget j (ts_Paths ts) = Some path /\ In s path /\
    skip_station j s ts = false /\ subsequent_train_at_Jround ts j s = PNone.

Definition wants (ts : train_sets) (j s : pv) : bool :=
  negb (skip_station j s ts) && is_none (subsequent_train_at_Jround ts j s).

Lemma wants_true ts j s :
  wants ts j s = true <-> skip_station j s ts = false /\ subsequent_train_at_Jround ts j s = PNone.
Proof.
  unfold wants, is_none. rewrite andb_true_iff, negb_true_iff, eqb_true. tauto.
Qed.

Section Delay.
  Variables (ts : train_sets) (d_max : Q) (cat : vcat).

  (** Leaves are exactly the pairs of [L]. *)
  Definition leaves_are (L : list (pv * pv)) (dv : tree) : Prop :=
    udepth 2 dv /\
    forall j s v, tpath [j; s] dv = Some v <-> In (j, s) L /\ v = delay_var_of j s d_max cat.

  Lemma leaves_step L dv j s dv' :
    leaves_are L dv ->
    update_dictofdicts dv (single [j; s] (delay_var_of j s d_max cat)) = Ok dv' ->
    leaves_are (L ++ [(j, s)]) dv' /\ ~ In (j, s) L.
  Proof.
    intros [Hd HL] H. destruct (tpath [j; s] dv) as [w|] eqn:E.
    - rewrite (update_single_old [j; s] (delay_var_of j s d_max cat) dv w E) in H. discriminate.
    - assert (Hn : ~ In (j, s) L).
      { intros Hin. assert (tpath [j; s] dv = Some (delay_var_of j s d_max cat)) by (apply HL; auto).
        congruence. }
      destruct (update_single_new [j; s] (delay_var_of j s d_max cat) dv Hd E)
        as (t' & Hu & Hd' & Hp). rewrite H in Hu; inversion Hu; subst t'; clear Hu.
      split; [|exact Hn]. split; [exact Hd'|].
      intros a b v. rewrite (Hp [a; b] eq_refl), in_app_iff. cbn [In].
      destruct (eq_dec [a; b] [j; s]) as [Eq|Ne].
      + inversion Eq; subst. split.
        * intros Hv; inversion Hv; subst. auto.
        * intros [_ ->]; reflexivity.
      + rewrite HL. split.
        * intros [? ->]; auto.
        * intros [[?|[Hc|[]]] ->]; auto. inversion Hc; subst. congruence.
  Qed.

  Lemma leaves_total L dv j s :
    leaves_are L dv -> ~ In (j, s) L ->
    exists dv', update_dictofdicts dv (single [j; s] (delay_var_of j s d_max cat)) = Ok dv'.
  Proof.
    intros [Hd HL] Hn. destruct (tpath [j; s] dv) as [w|] eqn:E.
    - apply HL in E as [? _]; contradiction.
    - destruct (update_single_new [j; s] (delay_var_of j s d_max cat) dv Hd E) as (t' & Hu & _).
      eauto.
  Qed.

  Definition pairs_of (j : pv) (path : list pv) : list (pv * pv) :=
    map (fun s => (j, s)) (filter (wants ts j) path).

  Definition path_of (j : pv) : list pv :=
    match dget j (ts_Paths ts) with Some p => p | None => [] end.

  Definition delay_pairs : list (pv * pv) :=
    flat_map (fun j => pairs_of j (path_of j)) (ts_J ts).

  Lemma in_delay_pairs j s : In (j, s) delay_pairs <-> has_delay ts j s.
  Proof.
    unfold delay_pairs, pairs_of, path_of, has_delay. rewrite in_flat_map. split.
    - intros (i & Hi & H). apply in_map_iff in H as (b & Eq & Hb). inversion Eq; subst.
      apply filter_In in Hb as [Hb Hw]. apply wants_true in Hw as [? ?].
      split; auto. destruct (dget j (ts_Paths ts)) as [p|]; [|inversion Hb]. exists p; auto.
    - intros (Hj & path & Hp & Hs & H1 & H2). exists j; split; auto. rewrite Hp.
      apply in_map_iff. exists s; split; auto. apply filter_In; split; auto.
      apply wants_true; auto.
  Qed.

  Lemma delay_inner L dv j path dv' :
    leaves_are L dv ->
    foldM (fun dv s =>
             if negb (skip_station j s ts) && is_none (subsequent_train_at_Jround ts j s)
             then update_dictofdicts dv (single [j; s] (delay_var_of j s d_max cat))
             else Ok dv) path dv = Ok dv' ->
    leaves_are (L ++ pairs_of j path) dv' /\
    (NoDup L -> NoDup (L ++ pairs_of j path)).
  Proof.
    revert L dv; induction path as [|s path IH]; intros L dv HL H; cbn [foldM] in H.
    - inversion H; subst. unfold pairs_of; simpl. rewrite app_nil_r. auto.
    - unfold pairs_of; simpl. fold (wants ts j s) in H. destruct (wants ts j s); cbn [map] in *.
      + inv_bind H. apply (leaves_step L dv j s) in E as [E Hn]; auto.
        destruct (IH _ _ E H) as [H1 H2]. rewrite <- app_assoc in H1, H2. simpl in H1, H2.
        split; [exact H1|]. intros ND. apply H2.
        apply NoDup_rev in ND. rewrite <- (rev_involutive (L ++ [(j, s)])).
        apply NoDup_rev. rewrite rev_app_distr. simpl. constructor; auto.
        rewrite <- in_rev. exact Hn.
      + destruct (IH _ _ HL H); auto.
  Qed.

  Lemma delay_outer l : forall L dv dv',
    leaves_are L dv ->
    foldM (fun dv j =>
           do path <- dlookup j (ts_Paths ts);
           foldM (fun dv s =>
                    if negb (skip_station j s ts)
                       && is_none (subsequent_train_at_Jround ts j s)
                    then update_dictofdicts dv (single [j; s] (delay_var_of j s d_max cat))
                    else Ok dv)
             path dv) l dv = Ok dv' ->
    leaves_are (L ++ flat_map (fun j => pairs_of j (path_of j)) l) dv' /\
    (NoDup L -> NoDup (L ++ flat_map (fun j => pairs_of j (path_of j)) l)).
  Proof.
    induction l as [|j l IH]; intros L dv dv' HL H; simpl in H.
    - inversion H; subst. simpl. rewrite app_nil_r. auto.
    - inv_bind H. inv_bind E. apply dlookup_ok in E0.
      destruct (delay_inner L dv j a0 a HL E) as [H1 H2].
      destruct (IH _ _ _ H1 H) as [H3 H4].
      simpl. unfold path_of at 1 3. rewrite E0. rewrite app_assoc. auto.
  Qed.

  Theorem delay_varibles_char dv :
    delay_varibles ts d_max cat = Ok dv ->
    udepth 2 dv /\ NoDup delay_pairs /\
    forall j s v, tpath [j; s] dv = Some v <-> has_delay ts j s /\ v = delay_var_of j s d_max cat.
  Proof.
    intros H. unfold delay_varibles in H.
    apply (delay_outer (ts_J ts) [] (TNode [])) in H as [[H1 H2] H3].
    - simpl in *. split; [exact H1|]. split; [apply H3; constructor|].
      intros j s v. rewrite H2. rewrite <- in_delay_pairs. reflexivity.
    - split; [constructor|]. intros j s v; simpl. split; [discriminate|tauto].
  Qed.

  Lemma get2_char dv j s v :
    delay_varibles ts d_max cat = Ok dv ->
    (get2 dv j s = Ok v <-> has_delay ts j s /\ v = delay_var_of j s d_max cat).
  Proof.
    intros H. apply delay_varibles_char in H as (_ & _ & H). rewrite get2_tpath. apply H.
  Qed.

  (** Building succeeds when no pair is repeated and every train has a path. *)
  Lemma delay_inner_total L dv j path :
    leaves_are L dv -> NoDup (L ++ pairs_of j path) ->
    exists dv', foldM (fun dv s =>
             if negb (skip_station j s ts) && is_none (subsequent_train_at_Jround ts j s)
             then update_dictofdicts dv (single [j; s] (delay_var_of j s d_max cat))
             else Ok dv) path dv = Ok dv'.
  Proof.
    revert L dv; induction path as [|s path IH]; intros L dv HL ND; cbn [foldM]; [eauto|].
    fold (wants ts j s). unfold pairs_of in ND; simpl in ND. destruct (wants ts j s) eqn:Ew; simpl in ND.
    - destruct (leaves_total L dv j s HL) as (dv1 & Hu).
      { intros Hin. apply NoDup_remove_2 in ND. apply ND. apply in_app_iff. auto. }
      unfold wants in Ew. rewrite Hu. cbn [bind]. apply (IH (L ++ [(j, s)])).
      + apply (leaves_step L dv j s dv1 HL Hu).
      + rewrite <- app_assoc. exact ND.
    - apply (IH L); auto.
  Qed.

  Lemma NoDup_app_l {A} (l m : list A) : NoDup (l ++ m) -> NoDup l.
  Proof.
    induction l as [|x l IH]; simpl; [constructor|]. intros H; inversion H; subst.
    constructor; [|auto]. intros Hx; apply H2. apply in_app_iff; auto.
  Qed.

  Theorem delay_varibles_total :
    (forall j, In j (ts_J ts) -> exists path, dget j (ts_Paths ts) = Some path) ->
    NoDup delay_pairs ->
    exists dv, delay_varibles ts d_max cat = Ok dv.
  Proof.
    intros HP ND. unfold delay_varibles.
    cut (forall l L dv, (forall j, In j l -> In j (ts_J ts)) -> leaves_are L dv ->
           NoDup (L ++ flat_map (fun j => pairs_of j (path_of j)) l) ->
           exists dv', foldM (fun dv j =>
           do path <- dlookup j (ts_Paths ts);
           foldM (fun dv s =>
                    if negb (skip_station j s ts)
                       && is_none (subsequent_train_at_Jround ts j s)
                    then update_dictofdicts dv (single [j; s] (delay_var_of j s d_max cat))
                    else Ok dv)
             path dv) l dv = Ok dv').
    { intros HC. apply (HC (ts_J ts) []); auto.
      split; [constructor|]. intros j s v; simpl. split; [discriminate|tauto]. }
    induction l as [|j l IH]; intros L dv Hl HL HN; cbn [foldM]; [eauto|].
    destruct (HP j (Hl j (or_introl eq_refl))) as [path Hp].
    unfold dlookup. rewrite Hp. cbn [bind]. simpl in HN. unfold path_of at 1 in HN. rewrite Hp in HN.
    rewrite app_assoc in HN.
    destruct (delay_inner_total L dv j path HL (NoDup_app_l _ _ HN)) as [dv1 H1].
    rewrite H1. cbn [bind]. apply (IH (L ++ pairs_of j path)); auto.
    - intros i Hi; apply Hl; simpl; auto.
    - apply (delay_inner L dv j path dv1 HL H1).
  Qed.
End Delay.
