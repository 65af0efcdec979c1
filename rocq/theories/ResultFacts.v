(** * ResultFacts: reports on samples and their order (C30-C34) *)

From Coq Require Import List String ZArith QArith Bool Lqa Lia Permutation.
From Verif Require Import Base Pulp BaseFacts Names Converters Results SpecQubo SpecResults QuboFacts QuboModel Qubo Interp.
Import ListNotations.
Open Scope string_scope.
Open Scope list_scope.

Lemma sum_sample_ok l d : (forall v k, In (v, k) l -> In (v_name v) (dkeys d)) ->
  exists q, sum_sample l d = Ok q /\ q == eval_terms l (values d).
Proof.
  unfold sum_sample. intros H.
  assert (G : forall l acc, (forall v k, In (v, k) l -> In (v_name v) (dkeys d)) ->
    exists q, foldM (fun acc vq => do q <- dlookup (v_name (fst vq)) d; Ok (acc + snd vq * q)) l acc = Ok q /\
      q == acc + eval_terms l (values d)).
  { clear. induction l as [|[v k] l IH]; intros acc H; cbn [foldM].
    - exists acc. split; [reflexivity|]. unfold eval_terms, qsum. cbn. lra.
    - destruct (key_dget _ _ (H v k (or_introl eq_refl))) as [a Ha]. cbn [fst snd].
      unfold dlookup at 1. rewrite Ha. cbn [bind].
      destruct (IH (acc + k * a)) as (q & Hq & E); [intros w r Hw; exact (H w r (or_intror Hw))|].
      exists q. split; [exact Hq|]. rewrite E, eval_terms_cons.
      assert (EV : values d (v_id v) = a) by (unfold values; rewrite <- v_name_of, Ha; reflexivity). rewrite EV. lra. }
  destruct (G l 0 H) as (q & Hq & E). exists q. split; [exact Hq|]. rewrite E. lra.
Qed.

Lemma compare_holds c x q : q == eval_terms (a_terms (c_aff c)) x ->
  (compare_sense (c_sense c) q (- a_const (c_aff c)) = true <-> holds c x).
Proof.
  intros E. unfold compare_sense, holds, eval. destruct (c_sense c).
  - rewrite Qle_bool_iff, E. split; intros; lra.
  - rewrite Qeq_bool_iff, E. split; intros; lra.
  - rewrite Qle_bool_iff, E. split; intros; lra.
Qed.

(** ** analyze_constraints *)

Lemma number_filter {A : Type} (P : A -> Prop) (f : A -> bool) l :
  (forall x, In x l -> (f x = true <-> P x)) -> number_of P l (List.length (filter f l)).
Proof.
  induction l as [|x l IH]; intros H; cbn [filter]; [constructor|].
  destruct (f x) eqn:E; cbn [List.length].
  - constructor; [apply (H x); [left; reflexivity|exact E]|]. apply IH. intros y Hy. apply H. right. exact Hy.
  - constructor.
    + intros HP. apply (H x (or_introl eq_refl)) in HP. congruence.
    + apply IH. intros y Hy. apply H. right. exact Hy.
Qed.

Lemma analyze_fold p d l : forall acc, (forall n c, In (n, c) l -> In (n, c) (p_constraints p)) -> assigns p d ->
  NoDup (dkeys acc ++ dkeys l) ->
  exists fl, foldM (fun acc nc =>
                 do expr <- sum_sample (a_terms (c_aff (snd nc))) d;
                 Ok (dset (fst nc) (compare_sense (c_sense (snd nc)) expr (- a_const (c_aff (snd nc)))) acc)) l acc
             = Ok (acc ++ fl) /\
     Forall2 (fun (nc : string * constr) (nf : string * bool) => fst nf = fst nc /\ (snd nf = true <-> holds (snd nc) (values d))) l fl.
Proof.
  induction l as [|[n c] l IH]; intros acc HI HA ND; cbn [foldM].
  - exists []. rewrite app_nil_r. split; [reflexivity|constructor].
  - cbn [fst snd]. destruct (sum_sample_ok (a_terms (c_aff c)) d) as (q & Hq & E).
    { intros v k Hv. apply HA. right. exists n, c. split; [apply HI; left; reflexivity|]. apply in_map_iff. exists (v, k). auto. }
    rewrite Hq. cbn [bind]. rewrite dset_absent.
    2:{ cbn [dkeys map fst] in ND. apply NoDup_remove_2 in ND. rewrite in_app_iff in ND. tauto. }
    destruct (IH (acc ++ [(n, compare_sense (c_sense c) q (- a_const (c_aff c)))])) as (fl & Hfl & F).
    + intros n' c' H. apply HI. right. exact H.
    + exact HA.
    + unfold dkeys in *. rewrite map_app. cbn [map fst]. rewrite <- app_assoc. cbn [app]. cbn [map fst] in ND. exact ND.
    + eexists. split.
      * rewrite Hfl, <- app_assoc. cbn [app]. reflexivity.
      * constructor; [|exact F]. cbn [fst snd]. split; [reflexivity|]. apply compare_holds. exact E.
Qed.

Theorem analyze_right p d : NoDup (dkeys (p_constraints p)) -> assigns p d ->
  exists r, analyze_constraints p d = Ok r /\ right_report p d r /\
    (forallb snd (fst r) = true <-> forall n c, In (n, c) (p_constraints p) -> holds c (values d)).
Proof.
  intros ND HA. unfold analyze_constraints.
  destruct (analyze_fold p d (p_constraints p) [] (fun _ _ H => H) HA ND) as (fl & Hfl & F). cbn [app] in Hfl.
  match goal with |- context [foldM ?f ?l ?a] => replace (foldM f l a) with (Ok fl) by (symmetry; exact Hfl) end.
  cbn [bind]. eexists. split; [reflexivity|]. cbn [fst snd].
  assert (HK : dkeys fl = dkeys (p_constraints p)).
  { unfold dkeys. clear -F. induction F as [|a b l l' [E _] F IH]; cbn [map]; [reflexivity|]. rewrite E, IH. reflexivity. }
  split; [split; [exact HK|split]|].
  - intros n c Hc. destruct (forall2_in _ _ _ _ F Hc) as ([n' f] & Hf & E & HH). cbn [fst snd] in *. subst. eauto.
  - clear -F. cbn [snd]. induction F as [|[n c] [n' f] l l' [E HH] F IH]; cbn [filter snd]; [constructor|].
    cbn [snd] in HH. destruct f; cbn [List.length]; constructor; try exact IH; cbn [snd].
    + apply HH. reflexivity.
    + intros X. apply HH in X. discriminate.
  - clear -F. induction F as [|[n c] [n' f] l l' [E HH] F IH]; cbn [forallb].
    + split; [intros _ n c []|reflexivity].
    + cbn [fst snd] in *. rewrite andb_true_iff, IH, HH. split.
      * intros [H1 H2] m k [H|H]; [inversion H; subst; exact H1|eauto].
      * intros H. split; [apply (H n c); left; reflexivity|]. intros m k Hk. apply (H m k). right. exact Hk.
Qed.

(** ** get_results *)

Lemma objective_ok p d : assigns p d -> exists q, get_objective p d = Ok q /\ q == obj_value p (values d).
Proof.
  intros HA. unfold get_objective. destruct (sum_sample_ok (a_terms (p_objective p)) d) as (q & -> & E).
  { intros v k Hv. apply HA. left. apply in_map_iff. exists (v, k). auto. }
  cbn [bind]. eexists. split; [reflexivity|]. unfold obj_value, eval. rewrite E. lra.
Qed.

Definition report (prob : lpproblem) (se : dict string Q * Q) : res entry :=
  do o <- get_objective prob (fst se);
  do a <- analyze_constraints prob (fst se);
  Ok (MkEntry (snd se) o (forallb snd (fst a)) (fst se) a).

Lemma report_right p se : NoDup (dkeys (p_constraints p)) -> assigns p (fst se) ->
  exists e, report p se = Ok e /\ right_entry p e /\ (e_sample e, e_energy e) = se.
Proof.
  intros ND HA. unfold report. destruct (objective_ok p (fst se) HA) as (o & -> & EO). cbn [bind].
  destruct (analyze_right p (fst se) ND HA) as (r & -> & R1 & R2). cbn [bind]. eexists. split; [reflexivity|].
  split; [|destruct se; reflexivity]. split; [exact EO|]. split; [exact R2|exact R1].
Qed.

Lemma reports p l : NoDup (dkeys (p_constraints p)) -> (forall d e, In (d, e) l -> assigns p d) ->
  exists es, mapM (report p) l = Ok es /\ map (fun e => (e_sample e, e_energy e)) es = l /\
    forall e, In e es -> right_entry p e.
Proof.
  intros ND. induction l as [|[d q] l IH]; intros HA; cbn [mapM].
  - exists []. split; [reflexivity|]. split; [reflexivity|]. intros e [].
  - destruct (report_right p (d, q) ND) as (e & He & R & E); [apply (HA d q); left; reflexivity|].
    destruct IH as (es & Hes & EM & RS); [intros d' q' H; apply (HA d' q'); right; exact H|].
    rewrite He. cbn [bind]. rewrite Hes. cbn [bind]. exists (e :: es). split; [reflexivity|]. split.
    + cbn [map]. rewrite E, EM. reflexivity.
    + intros e' [<-|H]; auto.
Qed.

(** Equal keys keep the order of another key *)
Lemma stable_ties {A : Type} (k1 k2 : A -> Q) l : ordered_by k2 l ->
  forall l1 x l2 y l3, sorted_by k1 l = l1 ++ x :: l2 ++ y :: l3 -> k1 x == k1 y -> k2 x <= k2 y.
Proof.
  intros HO l1 x l2 y l3 E EQ. pose proof (sorted_stable k1 (k1 y) l) as S. rewrite E in S.
  rewrite filter_app in S. cbn [filter] in S. replace (Qeq_bool (k1 x) (k1 y)) with true in S
    by (symmetry; apply Qeq_bool_iff; exact EQ). rewrite filter_app in S. cbn [filter] in S.
  replace (Qeq_bool (k1 y) (k1 y)) with true in S by (symmetry; apply Qeq_bool_iff; reflexivity).
  set (f := fun a => Qeq_bool (k1 a) (k1 y)) in *.
  assert (G : forall m, asc k2 m -> asc k2 (filter f m)).
  { intros m H. induction H as [|a m Ha H IH]; cbn [filter]; [constructor|]. destruct (f a); [|exact IH].
    constructor; [|exact IH]. intros b Hb. apply filter_In in Hb. apply Ha, Hb. }
  apply ordered_asc in HO. apply G in HO. rewrite <- S in HO. apply asc_ordered in HO.
  eapply HO. reflexivity.
Qed.

Theorem results_right p rows : NoDup (dkeys (p_constraints p)) -> (forall d e, In (d, e) rows -> assigns p d) ->
  exists out, get_results rows p = Ok out /\
    Permutation rows (map (fun e => (e_sample e, e_energy e)) out) /\
    ordered_by e_objective out /\
    (forall l1 x l2 y l3, out = l1 ++ x :: l2 ++ y :: l3 -> e_objective x == e_objective y -> e_energy x <= e_energy y) /\
    forall e, In e out -> right_entry p e.
Proof.
  intros ND HA. unfold get_results.
  assert (PR : Permutation rows (data rows)) by apply sorted_perm.
  destruct (reports p (data rows) ND) as (es & Hes & EM & RS).
  { intros d e H. apply (HA d e). eapply Permutation_in; [symmetry; exact PR|exact H]. }
  change (mapM (fun se => do o <- get_objective p (fst se); do a <- analyze_constraints p (fst se);
                 Ok (MkEntry (snd se) o (forallb snd (fst a)) (fst se) a)) (data rows)) with (mapM (report p) (data rows)).
  match goal with |- context [mapM (report p) ?l] => replace (mapM (report p) l) with (Ok es) by (symmetry; exact Hes) end.
  cbn [bind]. eexists. split; [reflexivity|].
  pose proof (sorted_perm e_objective es) as PE. split; [|split; [|split]].
  - rewrite PR, <- EM. apply Permutation_map. exact PE.
  - apply asc_ordered, sorted_asc.
  - apply stable_ties. apply asc_ordered.
    assert (SD : asc snd (data rows)) by apply sorted_asc. rewrite <- EM in SD. clear -SD.
    induction es as [|e es IH]; [constructor|]. cbn [map] in SD. inversion SD as [|? ? H1 H2]; subst. constructor; [|auto].
    intros y Hy. apply (H1 (e_sample y, e_energy y)). apply in_map_iff. eauto.
  - intros e He. apply RS. eapply Permutation_in; [symmetry; exact PE|exact He].
Qed.

Lemma results_inv p rows out : get_results rows p = Ok out ->
  forall e, In e out -> exists d q, In (d, q) rows /\ e_sample e = d /\ e_energy e = q.
Proof.
  unfold get_results. intros H. inv_bind H. inversion H; subst. intros e He.
  apply (Permutation_in _ (Permutation_sym (sorted_perm e_objective a))) in He.
  apply mapM_ok in E. apply in_split in He as (l1 & l2 & ->). apply Forall2_app_inv_r in E as (m1 & m2 & _ & F & EM).
  inversion F as [|[d q] ? m3 ? HR _]; subst. inv_bind HR. inv_bind HR. inversion HR; subst. cbn [e_sample e_energy fst snd].
  exists d, q. split; [|auto]. eapply Permutation_in; [symmetry; apply (sorted_perm snd)|].
  unfold data in EM. rewrite EM. apply in_app_iff. right. left. reflexivity.
Qed.

(** ** get_best_feasible_sample *)

Lemma first_feasible l e : ordered_by e_objective l -> find e_feasible l = Some e ->
  In e l /\ e_feasible e = true /\ forall e', In e' l -> e_feasible e' = true -> e_objective e <= e_objective e'.
Proof.
  intros HO H. apply ordered_asc in HO. induction HO as [|x l Hx HO IH]; cbn [find] in H; [discriminate|].
  destruct (e_feasible x) eqn:E.
  - inversion H; subst. split; [left; reflexivity|]. split; [exact E|]. intros e' [<-|He] _; [apply Qle_refl|apply Hx, He].
  - destruct (IH H) as (I1 & I2 & I3). split; [right; exact I1|]. split; [exact I2|].
    intros e' [<-|He] F; [congruence|auto].
Qed.

Lemma best_ok l : ordered_by e_objective l ->
  (l = [] /\ get_best_feasible_sample l = Err IndexError) \/
  exists e, get_best_feasible_sample l = Ok e /\ In e l /\
    ((e_feasible e = true /\ forall e', In e' l -> e_feasible e' = true -> e_objective e <= e_objective e') \/
     ((forall e', In e' l -> e_feasible e' = false) /\ forall e', In e' l -> e_energy e <= e_energy e')).
Proof.
  intros HO. unfold get_best_feasible_sample. destruct (find e_feasible l) as [e|] eqn:F.
  - right. exists e. destruct (first_feasible l e HO F) as (H1 & H2 & H3). auto.
  - assert (NF := find_none _ _ F). pose proof (sorted_perm e_energy l) as PE. pose proof (sorted_asc e_energy l) as SA.
    unfold lnth. destruct (sorted_by e_energy l) as [|e es] eqn:ES; cbn [nth_error].
    + left. split; [|reflexivity]. apply Permutation_sym, Permutation_nil in PE. exact PE.
    + right. exists e. split; [reflexivity|].
      split; [eapply Permutation_in; [symmetry; exact PE|left; reflexivity]|]. right. split; [exact NF|].
      intros e' He. apply (Permutation_in _ PE) in He as [<-|He]; [apply Qle_refl|]. inversion SA; subst. auto.
Qed.

(** ** Counting *)

Lemma count_fold (l : list Q) : forall n,
  fold_left (fun count J => if Qeq_bool J 0 then count else S count) l n =
  (n + List.length (filter (fun J => negb (Qeq_bool J 0)) l))%nat.
Proof.
  induction l as [|q l IH]; intros n; cbn [fold_left filter]; [cbn; lia|]. rewrite IH.
  destruct (Qeq_bool q 0); cbn [negb List.length]; lia.
Qed.

Lemma count_nonzero {A} (d : list (A * Q)) :
  number_of (fun kq => ~ snd kq == 0) d
    (fold_left (fun count J => if Qeq_bool J 0 then count else S count) (map snd d) 0%nat).
Proof.
  rewrite count_fold. cbn [plus].
  replace (List.length (filter (fun J => negb (Qeq_bool J 0)) (map snd d)))
    with (List.length (filter (fun kq : A * Q => negb (Qeq_bool (snd kq) 0)) d)).
  - apply number_filter. intros [k q] _. cbn [snd]. rewrite negb_true_iff. split.
    + intros H E. apply Qeq_bool_iff in E. congruence.
    + intros H. destruct (Qeq_bool q 0) eqn:E; [|reflexivity]. apply Qeq_bool_iff in E. tauto.
  - induction d as [|[k q] d IH]; cbn [map filter snd]; [reflexivity|]. destruct (negb (Qeq_bool q 0)); cbn [List.length]; congruence.
Qed.
