(** * Interp: sorting of rows, and the interpreter of the QUBO route (C29) *)

From Coq Require Import List String Ascii ZArith QArith Qround Bool Lqa Lia Permutation.
From Verif Require Import Base Pulp BaseFacts Names Converters SpecQubo QuboFacts QuboModel Qubo QuboEncode.
Import ListNotations.
Open Scope string_scope.
Open Scope list_scope.

(** ** Sorting *)

Section Sorting.
  Context {A : Type} (key : A -> Q).

  Lemma insert_perm x l : Permutation (x :: l) (insert_by key x l).
  Proof.
    induction l as [|y l IH]; cbn [insert_by]; [reflexivity|]. destruct (qltb (key x) (key y)); [reflexivity|].
    etransitivity; [apply perm_swap|]. apply perm_skip. exact IH.
  Qed.

  Lemma sorted_perm l : Permutation l (sorted_by key l).
  Proof.
    unfold sorted_by. assert (G : forall l acc, Permutation (acc ++ l) (fold_left (fun acc x => insert_by key x acc) l acc)).
    { induction l0 as [|x l0 IH]; intros acc; cbn [fold_left]; [rewrite app_nil_r; reflexivity|].
      rewrite <- IH. rewrite <- insert_perm. symmetry. apply Permutation_middle. }
    exact (G l []).
  Qed.

  (** Sorted: a convenient inductive form *)
  Inductive asc : list A -> Prop :=
  | asc_nil : asc []
  | asc_cons x l : (forall y, In y l -> key x <= key y) -> asc l -> asc (x :: l).

  Lemma asc_ordered l : asc l -> ordered_by key l.
  Proof.
    intros H. induction H as [|x l Hx H IH]; intros l1 a l2 b l3 E.
    - destruct l1; discriminate.
    - destruct l1 as [|c l1]; cbn in E.
      + inversion E; subst. apply Hx. apply in_app_iff. right. left. reflexivity.
      + inversion E; subst. eapply IH. reflexivity.
  Qed.

  Lemma insert_asc x l : asc l -> asc (insert_by key x l).
  Proof.
    intros H. induction H as [|y l Hy H IH]; cbn [insert_by].
    - constructor; [intros y []|constructor].
    - destruct (qltb (key x) (key y)) eqn:E.
      + apply qltb_true in E. constructor; [|constructor; assumption].
        intros z [<-|Hz]; [lra|]. specialize (Hy z Hz). lra.
      + apply qltb_false in E. constructor; [|exact IH]. intros z Hz.
        apply (Permutation_in _ (Permutation_sym (insert_perm x l))) in Hz as [<-|Hz]; [exact E|auto].
  Qed.

  Lemma sorted_asc l : asc (sorted_by key l).
  Proof.
    unfold sorted_by. assert (G : forall l acc, asc acc -> asc (fold_left (fun acc x => insert_by key x acc) l acc)).
    { induction l0 as [|x l0 IH]; intros acc H; cbn [fold_left]; [exact H|]. apply IH, insert_asc, H. }
    apply G. constructor.
  Qed.

  (** Rows with one key stay in their order *)
  Lemma insert_stable q x l : asc l ->
    filter (fun a => Qeq_bool (key a) q) (insert_by key x l) =
    filter (fun a => Qeq_bool (key a) q) (l ++ [x]).
  Proof.
    intros H. induction H as [|y l Hy H IH]; cbn [insert_by app]; [reflexivity|].
    destruct (qltb (key x) (key y)) eqn:E.
    - apply qltb_true in E. cbn [filter]. rewrite filter_app. cbn [filter].
      destruct (Qeq_bool (key x) q) eqn:EX; [|rewrite app_nil_r; reflexivity].
      apply Qeq_bool_iff in EX.
      destruct (Qeq_bool (key y) q) eqn:EY; [apply Qeq_bool_iff in EY; lra|].
      replace (filter (fun a => Qeq_bool (key a) q) l) with (@nil A); [reflexivity|].
      symmetry. assert (G : forall m, (forall z, In z m -> key y <= key z) -> filter (fun a => Qeq_bool (key a) q) m = []).
      { induction m as [|z m IHm]; intros Hm; [reflexivity|]. cbn [filter].
        destruct (Qeq_bool (key z) q) eqn:EZ.
        - apply Qeq_bool_iff in EZ. specialize (Hm z (or_introl eq_refl)). lra.
        - apply IHm. intros w Hw. apply Hm. right. exact Hw. }
      apply G. exact Hy.
    - cbn [filter]. rewrite IH. reflexivity.
  Qed.

  Lemma sorted_stable q l :
    filter (fun a => Qeq_bool (key a) q) (sorted_by key l) = filter (fun a => Qeq_bool (key a) q) l.
  Proof.
    unfold sorted_by. assert (G : forall l acc, asc acc ->
      filter (fun a => Qeq_bool (key a) q) (fold_left (fun acc x => insert_by key x acc) l acc) =
      filter (fun a => Qeq_bool (key a) q) (acc ++ l)).
    { induction l0 as [|x l0 IH]; intros acc H; cbn [fold_left]; [rewrite app_nil_r; reflexivity|].
      rewrite IH by (apply insert_asc; exact H). rewrite filter_app, insert_stable by exact H.
      rewrite <- filter_app, <- app_assoc. reflexivity. }
    apply (G l []). constructor.
  Qed.

  Lemma ordered_asc l : ordered_by key l -> asc l.
  Proof.
    induction l as [|x l IH]; intros H; [constructor|]. constructor.
    - intros y Hy. apply in_split in Hy as (l2 & l3 & ->). eapply (H []). reflexivity.
    - apply IH. intros l1 a l2 b l3 ->. apply (H (x :: l1) a l2 b l3). reflexivity.
  Qed.
End Sorting.

(** ** The interpreter *)

Lemma bqm_split p pdict b interp : convert_to_bqm p pdict = Ok (b, interp) ->
  exists m, convert_to_pyqubo p = Ok m /\ to_bqm m pdict = Ok b /\ interp = interpreter p m.
Proof. unfold convert_to_bqm. intros H. inv_bind H. inv_bind H. inversion H; subst. eauto. Qed.

Lemma log_encoded label lo up a s : log_enc label lo up = Ok a ->
  lin_value a (bit s) == encoded_number lo (up - lo) (fun i => bit s (label ++ "[" ++ str_of_Z (Z.of_nat i) ++ "]")%string).
Proof.
  unfold log_enc. destruct (Z.leb_spec up lo); [discriminate|]. intros E. inversion E; subst; clear E.
  unfold lin_value, encoded_number. cbn [l_terms l_off]. unfold log_bits.
  rewrite map_app, qsum_app, map_map. cbn [fst snd map]. unfold bit_label, qsum. cbn [map fold_right fst snd]. lra.
Qed.

Lemma form_encodes s v a q : var_form v = Ok a -> q == lin_value a (bit s) -> encodes s v q.
Proof.
  unfold var_form. destruct (v_cat v) eqn:C; [|discriminate]. destruct (is_binary v) eqn:B; intros E Hq.
  - inversion E; subst. apply is_binary_bounds in B as (lo & up & Hl & Hu & El & Eu & _).
    exists 0%Z, 1%Z. split; [exists lo, up; auto|]. left. do 2 (split; [reflexivity|]). rewrite Hq.
    unfold lin_value, qsum. cbn [l_terms l_off map fold_right fst snd]. lra.
  - unfold log_enc_var in E. destruct (v_lo v) as [lo|] eqn:Hl, (v_up v) as [up|] eqn:Hu; try discriminate.
    destruct (as_int lo) as [l|] eqn:Al; [|discriminate]. destruct (as_int up) as [u|] eqn:Au; [|discriminate].
    apply as_int_ok in Al, Au. exists l, u. split; [exists lo, up; auto|]. right. split; [|split].
    + intros [-> ->]. unfold is_binary in B. rewrite C, Hl, Hu in B.
      replace (Qeq_bool lo 0) with true in B by (symmetry; apply Qeq_bool_iff; exact Al).
      replace (Qeq_bool up 1) with true in B by (symmetry; apply Qeq_bool_iff; exact Au). discriminate.
    + unfold log_enc in E. destruct (Z.leb_spec u l); [discriminate|assumption].
    + rewrite Hq. apply log_encoded. exact E.
Qed.

Section Interp.
  Variables (p : lpproblem) (m : qmodel) (pdict : dict string Q) (b : bqm).
  Hypothesis CM : convert_to_pyqubo p = Ok m.
  Hypothesis CB : to_bqm m pdict = Ok b.
  Hypothesis HC : consistent p.
  Hypothesis HA : apart p.

  Lemma decode_decoded s : sample_of b s -> exists d, decode_row p m s = Ok d /\ decoded p s d.
  Proof.
    intros HS. destruct (model_built p m CM HC HA) as (t & Hs & Ho & BT).
    destruct (decode_total p m pdict b CB HC t Hs Ho BT s HS) as (d & Hd & HK & HN & HV).
    exists d. split; [exact Hd|]. split; [exact HN|]. split.
    - intros k. rewrite HK, in_map_iff. split; intros (v & H1 & H2); exists v; auto.
    - intros v Hv. pose proof (variables_occurs p v Hv) as Ov.
      destruct (key_dget (v_name v) d) as [q Hq]; [apply HK, in_map, Hv|].
      destruct (b_forms _ _ _ _ _ BT v Ov) as (a & Hf & _). pose proof (HV v a Ov Hf) as E.
      pose proof (decoded_in_range p m pdict b CM CB HC HA s d HS Hd v Hv) as R.
      unfold values in E, R. rewrite <- v_name_of, Hq in E, R.
      exists q. split; [exact Hq|]. split; [|exact R]. apply (form_encodes s v a q Hf E).
  Qed.

  Theorem interpreter_rows rows : (forall s e, In (s, e) rows -> sample_of b s) ->
    exists out rows', interpreter p m rows = Ok out /\ Permutation rows rows' /\ ordered_by snd rows' /\
      Forall2 (fun se de => snd de = snd se /\ decoded p (fst se) (fst de)) rows' out.
  Proof.
    intros HR. unfold interpreter. set (rows' := data rows).
    assert (PR : Permutation rows rows') by apply sorted_perm.
    assert (HR' : forall s e, In (s, e) rows' -> sample_of b s).
    { intros s e H. apply (HR s e). eapply Permutation_in; [symmetry; exact PR|exact H]. }
    assert (G : forall l : list (bits * Q), (forall s e, In (s, e) l -> sample_of b s) ->
       exists ds, mapM (fun se => decode_row p m (fst se)) l = Ok ds /\
         Forall2 (fun se de => snd de = snd se /\ decoded p (fst se) (fst de)) l (combine ds (map snd l))).
    { clear -CM CB HC HA. induction l as [|[s e] l IH]; intros H; [exists []; split; [reflexivity|constructor]|].
      cbn [mapM fst]. destruct (decode_decoded s) as (d & Hd & HD); [apply (H s e); left; reflexivity|].
      rewrite Hd. cbn [bind]. destruct IH as (ds & Hds & F); [intros; eapply H; right; eassumption|].
      rewrite Hds. cbn [bind]. exists (d :: ds). split; [reflexivity|]. cbn. constructor; [|exact F]. auto. }
    destruct (G rows' HR') as (ds & Hds & F). exists (combine ds (map snd rows')), rows'.
    rewrite Hds. cbn [bind]. split; [reflexivity|]. split; [exact PR|]. split; [|exact F].
    apply asc_ordered. apply sorted_asc.
  Qed.

  Lemma interpreter_one s e d : decode_row p m s = Ok d -> interpreter p m [(s, e)] = Ok [(d, e)].
  Proof. intros H. unfold interpreter, data, sorted_by. cbn. rewrite H. reflexivity. Qed.

  Theorem encode_decode x : names_distinct p -> in_range p x ->
    exists s d, sample_of b s /\ decode_row p m s = Ok d /\
      forall v, In v (variables p) -> values d (v_id v) == x (v_id v).
  Proof.
    intros HD HR. destruct (model_built p m CM HC HA) as (t & Hs & Ho & BT).
    destruct (encode p m pdict b CM CB HC HA HD x (fun _ => 0%Z) HR) as (s & HS & HV & _).
    { intros n c ub Hc NE Hu. split; [lia|].
      destruct (forall2_in _ _ _ _ (b_cons _ _ _ _ _ BT) Hc) as (sm & _ & ph & e & a & fo & _ & _ & _ & SF & _).
      destruct SF as [S|ub' a' _ Hu' Ha]; [cbn in S; congruence|]. cbn [fst snd] in *.
      assert (ub' = ub) by congruence. subst ub'. unfold log_enc in Ha.
      destruct (Z.leb_spec ub 0); [discriminate|lia]. }
    destruct (decode_total p m pdict b CB HC t Hs Ho BT s HS) as (d & Hd & _ & _ & HVd).
    exists s, d. do 2 (split; [assumption|]). intros v Hv. apply variables_occurs in Hv.
    destruct (b_forms _ _ _ _ _ BT v Hv) as (a & Hf & _). rewrite (HVd v a Hv Hf). apply HV; assumption.
  Qed.
End Interp.
