(** * BaseFacts: lemmas about the vocabulary of Base.v and Pulp.v *)

From Coq Require Import List String Ascii ZArith QArith Bool Arith Lia Lqa Permutation.
From Coq Require Import DecimalString DecimalZ.
From Verif Require Import Base Pulp.
Import ListNotations.
Open Scope string_scope.
Open Scope list_scope.

(** ** Result type *)

Lemma bind_ok {A B} (r : res A) (f : A -> res B) b :
  bind r f = Ok b -> exists a, r = Ok a /\ f a = Ok b.
Proof. destruct r; simpl; intros; [eauto | discriminate]. Qed.

Ltac inv_bind H :=
  let a := fresh "a" in let E := fresh "E" in
  apply bind_ok in H; destruct H as [a [E H]].

Lemma foldM_app {A B} (f : B -> A -> res B) l m acc :
  foldM f (l ++ m) acc = bind (foldM f l acc) (foldM f m).
Proof.
  revert acc; induction l as [|x l IH]; intros acc; simpl; [reflexivity|].
  destruct (f acc x); simpl; auto.
Qed.

Lemma foldM_flat_map {A B C} (f : B -> A -> res B) (g : C -> list A) l acc :
  foldM f (flat_map g l) acc = foldM (fun acc x => foldM f (g x) acc) l acc.
Proof.
  revert acc; induction l as [|x l IH]; intros acc; simpl; [reflexivity|].
  rewrite foldM_app. destruct (foldM f (g x) acc); simpl; auto.
Qed.

Lemma foldM_map {A B C} (f : B -> A -> res B) (g : C -> A) l acc :
  foldM f (map g l) acc = foldM (fun acc x => f acc (g x)) l acc.
Proof.
  revert acc; induction l as [|x l IH]; intros acc; simpl; [reflexivity|].
  destruct (f acc (g x)); simpl; auto.
Qed.

Lemma foldM_ext {A B} (f g : B -> A -> res B) l acc :
  (forall acc x, In x l -> f acc x = g acc x) -> foldM f l acc = foldM g l acc.
Proof.
  revert acc; induction l as [|x l IH]; intros acc H; simpl; [reflexivity|].
  rewrite H by (left; reflexivity). destruct (g acc x); simpl; auto.
  apply IH; intros; apply H; right; assumption.
Qed.

Lemma foldM_inv {A B} (P : B -> Prop) (f : B -> A -> res B) l acc r :
  P acc -> (forall acc x acc', In x l -> P acc -> f acc x = Ok acc' -> P acc') ->
  foldM f l acc = Ok r -> P r.
Proof.
  revert acc; induction l as [|x l IH]; intros acc H0 Hs H; simpl in H.
  - inversion H; subst; assumption.
  - inv_bind H. eapply IH; [| |exact H].
    + eapply Hs; [left; reflexivity|exact H0|exact E].
    + intros; eapply Hs; eauto. right; assumption.
Qed.

(** A property established by the step of one element and kept by all other steps. *)
Lemma foldM_reach {A B} (P : B -> Prop) (I : B -> Prop) (f : B -> A -> res B) l acc r x :
  In x l -> I acc ->
  (forall acc y acc', In y l -> I acc -> f acc y = Ok acc' -> I acc') ->
  (forall acc acc', I acc -> f acc x = Ok acc' -> P acc') ->
  (forall acc y acc', In y l -> I acc -> P acc -> f acc y = Ok acc' -> P acc') ->
  foldM f l acc = Ok r -> P r.
Proof.
  revert acc; induction l as [|z l IH]; intros acc Hin HI HIs Hx Hk H; [destruct Hin|].
  simpl in H. inv_bind H.
  assert (HIa : I a) by exact (HIs acc z a (or_introl eq_refl) HI E).
  destruct Hin as [->|Hin].
  - assert (HP : P a) by eauto.
    cut (I r /\ P r); [tauto|].
    refine (foldM_inv (fun b => I b /\ P b) f l a r (conj HIa HP) _ H).
    intros b y b' Hy [HIb HPb] Hb; split.
    + exact (HIs b y b' (or_intror Hy) HIb Hb).
    + exact (Hk b y b' (or_intror Hy) HIb HPb Hb).
  - eapply IH; eauto.
    + intros b y b' Hy; exact (HIs b y b' (or_intror Hy)).
    + intros b y b' Hy; exact (Hk b y b' (or_intror Hy)).
Qed.

Lemma foldM_total {A B} (I : B -> Prop) (f : B -> A -> res B) l acc :
  I acc ->
  (forall acc x, In x l -> I acc -> exists acc', f acc x = Ok acc' /\ I acc') ->
  exists r, foldM f l acc = Ok r /\ I r.
Proof.
  revert acc; induction l as [|x l IH]; intros acc H0 Hs; simpl; [eauto|].
  destruct (Hs acc x (or_introl eq_refl) H0) as [a [E Ha]].
  rewrite E; simpl. apply IH; auto. intros; apply Hs; auto. right; assumption.
Qed.

Lemma mapM_ok {A B} (f : A -> res B) l ys :
  mapM f l = Ok ys -> Forall2 (fun x y => f x = Ok y) l ys.
Proof.
  revert ys; induction l as [|x l IH]; intros ys H; simpl in H.
  - inversion H; constructor.
  - inv_bind H. inv_bind H. inversion H; subst. constructor; auto.
Qed.

(** ** Equality *)

Lemma eqb_true {A} `{EqDec A} (x y : A) : eqb x y = true <-> x = y.
Proof. unfold eqb; destruct (eq_dec x y); split; congruence. Qed.

Lemma eqb_false {A} `{EqDec A} (x y : A) : eqb x y = false <-> x <> y.
Proof. unfold eqb; destruct (eq_dec x y); split; congruence. Qed.

Lemma eqb_eq {A} `{EqDec A} (x y : A) : eqb x y = true -> x = y.
Proof. apply eqb_true. Qed.

Lemma eqb_neq {A} `{EqDec A} (x y : A) : eqb x y = false -> x <> y.
Proof. apply eqb_false. Qed.

Lemma eqb_refl {A} `{EqDec A} (x : A) : eqb x x = true.
Proof. apply eqb_true; reflexivity. Qed.

Lemma eqb_sym {A} `{EqDec A} (x y : A) : eqb x y = eqb y x.
Proof. unfold eqb; destruct (eq_dec x y), (eq_dec y x); congruence. Qed.

(** ** Dictionaries *)

Section DictFacts.
  Context {K V : Type} `{EqDec K}.
  Implicit Types (d e : dict K V) (k : K) (v : V).

  Lemma dget_in k d v : dget k d = Some v -> In (k, v) d.
  Proof.
    induction d as [|[k' v'] d IH]; simpl; [discriminate|].
    destruct (eq_dec k k'); [subst; intros E; inversion E; auto | auto].
  Qed.

  Lemma dget_none k d : dget k d = None <-> ~ In k (dkeys d).
  Proof.
    unfold dkeys; induction d as [|[k' v'] d IH]; simpl; [tauto|].
    destruct (eq_dec k k'); subst; split; try discriminate.
    - intros HN; exfalso; apply HN; auto.
    - intros E [->|Hin]; [congruence|]. tauto.
    - intros HN; apply IH; tauto.
  Qed.

  Lemma in_dget k v d : NoDup (dkeys d) -> In (k, v) d -> dget k d = Some v.
  Proof.
    unfold dkeys; induction d as [|[k' v'] d IH]; simpl; [tauto|].
    intros ND [E|Hin]; inversion ND; subst.
    - inversion E; subst. destruct (eq_dec k k); congruence.
    - destruct (eq_dec k k'); auto. subst. exfalso. apply H2.
      apply in_map_iff. exists (k', v); auto.
  Qed.

  Lemma dmem_true k d : dmem k d = true <-> In k (dkeys d).
  Proof.
    unfold dmem. destruct (dget k d) eqn:E; split; intros; auto; try discriminate.
    - apply dget_in in E. apply in_map_iff. exists (k, v); auto.
    - apply dget_none in E. tauto.
  Qed.

  Lemma dmem_false k d : dmem k d = false <-> ~ In k (dkeys d).
  Proof. rewrite <- dmem_true. destruct (dmem k d); split; congruence. Qed.

  Lemma dget_dset k v d k' : dget k' (dset k v d) = if eq_dec k' k then Some v else dget k' d.
  Proof.
    induction d as [|[a b] d IH]; simpl.
    - reflexivity.
    - destruct (eq_dec k a); simpl.
      + subst. destruct (eq_dec k' a); reflexivity.
      + rewrite IH. destruct (eq_dec k' a), (eq_dec k' k); congruence.
  Qed.

  Lemma dlookup_ok k d v : dlookup k d = Ok v <-> dget k d = Some v.
  Proof. unfold dlookup; destruct (dget k d); split; congruence. Qed.

  Lemma dset_absent k v d : ~ In k (dkeys d) -> dset k v d = d ++ [(k, v)].
  Proof.
    unfold dkeys; induction d as [|[a b] d IH]; simpl; auto.
    intros HN. destruct (eq_dec k a); [subst; tauto|]. rewrite IH by tauto. reflexivity.
  Qed.

  Lemma dkeys_dset k v d :
    dkeys (dset k v d) = if dmem k d then dkeys d else dkeys d ++ [k].
  Proof.
    unfold dkeys, dmem; induction d as [|[a b] d IH]; simpl; [reflexivity|].
    destruct (eq_dec k a); simpl; [subst; reflexivity|].
    rewrite IH. destruct (dget k d); reflexivity.
  Qed.
End DictFacts.

(** ** Lists *)

Lemma lmem_true {A} `{EqDec A} (x : A) l : lmem x l = true <-> In x l.
Proof.
  induction l as [|y l IH]; simpl; [split; [discriminate|tauto]|].
  destruct (eq_dec x y); subst; [tauto|]. rewrite IH.
  split; [auto|]. intros [E|Hin]; [congruence|auto].
Qed.

Lemma lmem_false {A} `{EqDec A} (x : A) l : lmem x l = false <-> ~ In x l.
Proof. rewrite <- lmem_true. destruct (lmem x l); split; congruence. Qed.

Lemma lindex_spec {A} `{EqDec A} (x : A) l n :
  lindex x l = Ok n -> nth_error l n = Some x /\ (forall m, (m < n)%nat -> nth_error l m <> Some x).
Proof.
  revert n; induction l as [|y l IH]; intros n Hn; simpl in Hn; [discriminate|].
  destruct (eq_dec x y).
  - inversion Hn; subst. split; [reflexivity|]. intros; lia.
  - inv_bind Hn. inversion Hn; subst. destruct (IH _ E) as [H1 H2]. split; [exact H1|].
    intros m Hm. destruct m; simpl; [congruence|]. apply H2; lia.
Qed.

Lemma lindex_in {A} `{EqDec A} (x : A) l : In x l <-> exists n, lindex x l = Ok n.
Proof.
  induction l as [|y l IH]; simpl.
  - split; [tauto|intros [n E]; discriminate].
  - destruct (eq_dec x y).
    + split; [eauto|auto].
    + split.
      * intros [E|Hin]; [congruence|]. apply IH in Hin as [m E]. rewrite E; simpl; eauto.
      * intros [m E]. inv_bind E. right; apply IH; eauto.
Qed.

Lemma lindex_err {A} `{EqDec A} (x : A) l e : lindex x l = Err e -> e = ValueError /\ ~ In x l.
Proof.
  revert e; induction l as [|y l IH]; simpl; intros e He.
  - inversion He; auto.
  - destruct (eq_dec x y); [discriminate|].
    destruct (lindex x l) eqn:E; simpl in He; [discriminate|]. inversion He; subst.
    destruct (IH _ eq_refl). split; auto. intros [?|?]; [congruence|auto].
Qed.

Lemma combinations2_in {A} (l : list A) a b :
  In (a, b) (combinations2 l) <-> exists l1 l2 l3, l = l1 ++ a :: l2 ++ b :: l3.
Proof.
  induction l as [|x l IH]; simpl.
  - split; [tauto|]. intros (l1 & l2 & l3 & E). destruct l1; discriminate.
  - rewrite in_app_iff, in_map_iff, IH. split.
    + intros [[y [E Hy]]|(l1 & l2 & l3 & E)].
      * inversion E; subst. apply in_split in Hy as (l2 & l3 & ->).
        exists [], l2, l3; reflexivity.
      * subst. exists (x :: l1), l2, l3; reflexivity.
    + intros (l1 & l2 & l3 & E). destruct l1 as [|z l1]; simpl in E; inversion E; subst.
      * left. exists b; split; auto. apply in_or_app; right; left; reflexivity.
      * right. exists l1, l2, l3; reflexivity.
Qed.

Lemma combinations2_mem {A} (l : list A) a b :
  In (a, b) (combinations2 l) -> In a l /\ In b l.
Proof.
  rewrite combinations2_in. intros (l1 & l2 & l3 & ->). split.
  - apply in_or_app; right; left; reflexivity.
  - apply in_or_app; right; right. apply in_or_app; right; left; reflexivity.
Qed.

Lemma combinations2_neq {A} (l : list A) a b :
  NoDup l -> In (a, b) (combinations2 l) -> a <> b.
Proof.
  rewrite combinations2_in. intros ND (l1 & l2 & l3 & ->) ->.
  apply NoDup_remove in ND as [_ HN]. apply HN.
  apply in_or_app; right. apply in_or_app; right; left; reflexivity.
Qed.

(** ** Rational numbers *)

Lemma qltb_true a b : qltb a b = true <-> a < b.
Proof.
  unfold qltb. destruct (Qle_bool b a) eqn:E; simpl.
  - apply Qle_bool_iff in E. split; [discriminate|lra].
  - split; [|auto]. intros _. apply Qnot_le_lt. intros HC. apply Qle_bool_iff in HC. congruence.
Qed.

Lemma qltb_false a b : qltb a b = false <-> b <= a.
Proof.
  unfold qltb. destruct (Qle_bool b a) eqn:E; simpl.
  - apply Qle_bool_iff in E. tauto.
  - split; [discriminate|]. intros HC. apply Qle_bool_iff in HC. congruence.
Qed.

Lemma qmax_spec a b : (a <= b /\ qmax a b = b) \/ (b < a /\ qmax a b = a).
Proof.
  unfold qmax. destruct (Qle_bool a b) eqn:E.
  - left. apply Qle_bool_iff in E. auto.
  - right. split; auto. apply Qnot_le_lt. intros HC. apply Qle_bool_iff in HC. congruence.
Qed.

Lemma qmax_l a b : a <= qmax a b.
Proof. destruct (qmax_spec a b) as [[? ->]|[? ->]]; lra. Qed.

Lemma qmax_r a b : b <= qmax a b.
Proof. destruct (qmax_spec a b) as [[? ->]|[? ->]]; lra. Qed.

Lemma qmax_lub a b c : a <= c -> b <= c -> qmax a b <= c.
Proof. destruct (qmax_spec a b) as [[? ->]|[? ->]]; lra. Qed.

Lemma qsum_app l m : qsum (l ++ m) == qsum l + qsum m.
Proof. induction l; simpl; [lra|]. rewrite IHl; lra. Qed.

(** ** Affine expressions *)

Lemma eval_terms_cons v q l x :
  eval_terms ((v, q) :: l) x = q * x (v_id v) + eval_terms l x.
Proof. reflexivity. Qed.

Lemma eval_addterm v q l x :
  eval_terms (addterm v q l) x == eval_terms l x + q * x (v_id v).
Proof.
  induction l as [|[w r] l IH]; simpl addterm.
  - rewrite eval_terms_cons. unfold eval_terms; simpl. lra.
  - destruct (eq_dec (v_id v) (v_id w)) as [E|E].
    + rewrite !eval_terms_cons, E. ring.
    + rewrite !eval_terms_cons, IH. ring.
Qed.

Lemma eval_add_terms m l x :
  eval_terms (add_terms l m) x == eval_terms l x + eval_terms m x.
Proof.
  unfold add_terms. revert l; induction m as [|[v q] m IH]; intros l; simpl fold_left.
  - unfold eval_terms at 3; simpl. lra.
  - rewrite IH, eval_addterm, eval_terms_cons. simpl. ring.
Qed.

Lemma eval_scale_terms k l x : eval_terms (scale_terms k l) x == k * eval_terms l x.
Proof.
  unfold scale_terms. induction l as [|[v q] l IH]; simpl map.
  - unfold eval_terms; simpl; lra.
  - rewrite !eval_terms_cons, IH. simpl. ring.
Qed.

Lemma eval_const c x : eval (aff_const c) x == c.
Proof. unfold eval, eval_terms; simpl; lra. Qed.

Lemma eval_var v x : eval (aff_var v) x == x (v_id v).
Proof. unfold eval, eval_terms; simpl; lra. Qed.

Lemma eval_add a b x : eval (aff_add a b) x == eval a x + eval b x.
Proof. unfold eval; simpl. rewrite eval_add_terms. lra. Qed.

Lemma eval_scale k a x : eval (aff_scale k a) x == k * eval a x.
Proof. unfold eval; simpl. rewrite eval_scale_terms. lra. Qed.

Lemma eval_sub a b x : eval (aff_sub a b) x == eval a x - eval b x.
Proof. unfold aff_sub. rewrite eval_add, eval_scale. lra. Qed.

Lemma holds_ge a b x : holds (mk_ge a b) x <-> eval b x <= eval a x.
Proof. unfold holds, mk_ge; cbn [c_sense c_aff]. rewrite eval_sub. split; intros; lra. Qed.

Lemma holds_eq a b x : holds (mk_eq a b) x <-> eval a x == eval b x.
Proof. unfold holds, mk_eq; cbn [c_sense c_aff]. rewrite eval_sub. split; intros; lra. Qed.

(** ** Variables of a problem *)

Lemma addterm_vars v q l w :
  In w (map fst (addterm v q l)) -> w = v \/ In w (map fst l).
Proof.
  induction l as [|[u r] l IH]; simpl.
  - intros [<-|[]]; auto.
  - destruct (eq_dec (v_id v) (v_id u)); simpl; [tauto|]. intros [<-|Hin]; tauto.
Qed.

Lemma addterm_ids v q l i :
  In i (map (fun t => v_id (fst t)) (addterm v q l)) <->
  i = v_id v \/ In i (map (fun t => v_id (fst t)) l).
Proof.
  induction l as [|[u r] l IH]; simpl.
  - intuition congruence.
  - destruct (eq_dec (v_id v) (v_id u)) as [E|E]; simpl.
    + rewrite E. intuition congruence.
    + rewrite IH. intuition congruence.
Qed.

Definition aff_ids (a : aff) : list vid := map v_id (aff_vars a).

Lemma aff_ids_eq a : aff_ids a = map (fun t => v_id (fst t)) (a_terms a).
Proof. unfold aff_ids, aff_vars. rewrite map_map. reflexivity. Qed.

Lemma aff_add_ids a b i : In i (aff_ids (aff_add a b)) <-> In i (aff_ids a) \/ In i (aff_ids b).
Proof.
  rewrite !aff_ids_eq. unfold aff_add; cbn [a_terms]. unfold add_terms.
  generalize (a_terms a) as l. induction (a_terms b) as [|[v q] m IH]; intros l; simpl.
  - tauto.
  - rewrite IH, addterm_ids. simpl. intuition congruence.
Qed.

Lemma aff_add_vars a b w : In w (aff_vars (aff_add a b)) -> In w (aff_vars a) \/ In w (aff_vars b).
Proof.
  unfold aff_vars, aff_add; cbn [a_terms]. unfold add_terms.
  generalize (a_terms a) as l. induction (a_terms b) as [|[v q] m IH]; intros l; simpl.
  - tauto.
  - intros Hw. apply IH in Hw as [Hw|Hw]; [|tauto].
    apply addterm_vars in Hw as [->|Hw]; simpl; tauto.
Qed.

Lemma aff_scale_vars k a : aff_vars (aff_scale k a) = aff_vars a.
Proof. unfold aff_vars, aff_scale, scale_terms; simpl. rewrite map_map. reflexivity. Qed.

Lemma aff_scale_ids k a : aff_ids (aff_scale k a) = aff_ids a.
Proof. unfold aff_ids. rewrite aff_scale_vars. reflexivity. Qed.

Lemma aff_sub_ids a b i : In i (aff_ids (aff_sub a b)) <-> In i (aff_ids a) \/ In i (aff_ids b).
Proof. unfold aff_sub. rewrite aff_add_ids, aff_scale_ids. reflexivity. Qed.

Lemma aff_sub_vars a b w : In w (aff_vars (aff_sub a b)) -> In w (aff_vars a) \/ In w (aff_vars b).
Proof. unfold aff_sub. intros Hw. apply aff_add_vars in Hw. rewrite aff_scale_vars in Hw. exact Hw. Qed.

Lemma add_vars_in new acc v :
  In v (add_vars new acc) -> In v new \/ In v acc.
Proof.
  revert acc; induction new as [|w new IH]; intros acc; simpl; [tauto|].
  intros Hv. apply IH in Hv as [Hv|Hv]; [tauto|].
  destruct (vmem (v_id w) acc); [tauto|]. apply in_app_or in Hv. simpl in Hv. tauto.
Qed.

Lemma add_vars_ids new acc i :
  In i (map v_id (add_vars new acc)) <-> In i (map v_id new) \/ In i (map v_id acc).
Proof.
  revert acc; induction new as [|w new IH]; intros acc; simpl; [tauto|].
  rewrite IH. unfold vmem. destruct (lmem (v_id w) (map v_id acc)) eqn:E.
  - apply lmem_true in E. intuition congruence.
  - rewrite map_app, in_app_iff. simpl. intuition congruence.
Qed.

Lemma variables_in p v :
  In v (variables p) ->
  In v (aff_vars (p_objective p)) \/
  exists n c, In (n, c) (p_constraints p) /\ In v (aff_vars (c_aff c)).
Proof.
  unfold variables.
  assert (G : forall cs acc, In v (fold_left
     (fun acc (nc : string * constr) => add_vars (aff_vars (c_aff (snd nc))) acc) cs acc) ->
     In v acc \/ exists n c, In (n, c) cs /\ In v (aff_vars (c_aff c))).
  { induction cs as [|[n c] cs IH]; intros acc; simpl; [auto|].
    intros Hv. apply IH in Hv as [Hv|(n' & c' & Hc & Hv)].
    - apply add_vars_in in Hv as [Hv|Hv]; [|auto]. right; exists n, c; auto.
    - right; exists n', c'; auto. }
  intros Hv. apply G in Hv as [Hv|Hv]; [|auto].
  apply add_vars_in in Hv as [Hv|[]]. auto.
Qed.

Lemma variables_ids p i :
  In i (map v_id (variables p)) <->
  In i (aff_ids (p_objective p)) \/
  exists n c, In (n, c) (p_constraints p) /\ In i (aff_ids (c_aff c)).
Proof.
  unfold variables.
  assert (G : forall cs acc, In i (map v_id (fold_left
     (fun acc (nc : string * constr) => add_vars (aff_vars (c_aff (snd nc))) acc) cs acc)) <->
     In i (map v_id acc) \/ exists n c, In (n, c) cs /\ In i (aff_ids (c_aff c))).
  { induction cs as [|[n c] cs IH]; intros acc; simpl.
    - split; [auto|]. intros [?|(?&?&[]&_)]; auto.
    - rewrite IH, add_vars_ids. unfold aff_ids at 2. cbn [snd]. split.
      + intros [[Hv|Hv]|(n' & c' & Hc & Hv)]; [|auto|].
        * right; exists n, c; auto.
        * right; exists n', c'; auto.
      + intros [Hv|(n' & c' & [Hc|Hc] & Hv)]; [auto| |].
        * inversion Hc; subst; auto.
        * right; exists n', c'; auto. }
  rewrite G, add_vars_ids. unfold aff_ids at 1. simpl. tauto.
Qed.

(** ** Substrings *)

Lemma prefix_cons c d a b :
  String.prefix (String c a) (String d b) = if ascii_dec c d then String.prefix a b else false.
Proof. reflexivity. Qed.

Lemma prefix_iff a b : String.prefix a b = true <-> exists v, b = (a ++ v)%string.
Proof.
  revert b; induction a as [|c a IH]; intros b.
  - split; [intros _; exists b; reflexivity|]. intros _. destruct b; reflexivity.
  - destruct b as [|d b].
    + split; [discriminate|]. intros [v H]; discriminate.
    + rewrite prefix_cons. destruct (ascii_dec c d) as [->|N].
      * rewrite IH. split; intros [v H]; exists v; simpl in *; congruence.
      * split; [discriminate|]. intros [v H]; simpl in H; congruence.
Qed.

Lemma str_contains_iff a b :
  str_contains a b = true <-> exists u v, b = (u ++ a ++ v)%string.
Proof.
  induction b as [|c b IH]; cbn [str_contains]; rewrite orb_true_iff, prefix_iff.
  - split.
    + intros [[v H]|H]; [exists EmptyString, v; exact H|discriminate].
    + intros (u & v & H). left. destruct u; [exists v; exact H|discriminate].
  - rewrite IH. split.
    + intros [[v H]|(u & v & ->)]; [exists EmptyString, v; exact H|exists (String c u), v; reflexivity].
    + intros (u & v & H). destruct u as [|d u]; [left; exists v; exact H|].
      right. simpl in H. exists u, v. congruence.
Qed.
