(** * QuboFacts: encoding of integers, energy of the expanded model *)

From Coq Require Import List String Ascii ZArith QArith Qround Bool Lqa Lia Permutation.
From Verif Require Import Base Pulp BaseFacts Names Converters SpecQubo.
Import ListNotations.
Open Scope string_scope.
Open Scope list_scope.

(** ** Sums *)

Lemma qsum_app l m : qsum (l ++ m) == qsum l + qsum m.
Proof. induction l as [|a l IH]; unfold qsum in *; cbn [map app fold_right]; [lra|]. rewrite IH. lra. Qed.

Lemma qsum_scale {A} k (f : A -> Q) l : qsum (map (fun a => k * f a) l) == k * qsum (map f l).
Proof. induction l as [|a l IH]; unfold qsum in *; cbn [map app fold_right]; [lra|]. rewrite IH. lra. Qed.

Lemma qsum_ext {A} (f g : A -> Q) l : (forall a, In a l -> f a == g a) -> qsum (map f l) == qsum (map g l).
Proof.
  induction l as [|a l IH]; intros H; unfold qsum in *; cbn [map fold_right]; [reflexivity|].
  rewrite (H a) by (left; reflexivity). rewrite IH; [reflexivity|]. intros; apply H; right; assumption.
Qed.

(** ** Linear forms *)

Lemma lin_value_add a b f : lin_value (lin_add a b) f == lin_value a f + lin_value b f.
Proof. unfold lin_value, lin_add. cbn [l_terms l_off]. rewrite map_app, qsum_app. lra. Qed.

Lemma lin_value_scale k a f : lin_value (lin_scale k a) f == k * lin_value a f.
Proof.
  unfold lin_value, lin_scale. cbn [l_terms l_off]. rewrite map_map. cbn [fst snd].
  rewrite (qsum_ext _ (fun t => k * (snd t * f (fst t)))); [|intros; lra].
  rewrite qsum_scale. lra.
Qed.

Lemma lin_value_const c f : lin_value (lin_const c) f == c.
Proof. unfold lin_value, lin_const, qsum. cbn [l_terms l_off map fold_right]. lra. Qed.

Lemma lin_value_ext a f g : (forall l, In l (map fst (l_terms a)) -> f l == g l) -> lin_value a f == lin_value a g.
Proof.
  intros H. unfold lin_value. rewrite (qsum_ext _ (fun t => snd t * g (fst t))); [reflexivity|].
  intros t Ht. rewrite H; [reflexivity|]. apply in_map. exact Ht.
Qed.

(** ** Bit labels *)

Definition no_bracket (c : ascii) : bool := negb (Ascii.eqb c "["%char).

Fixpoint allc (f : ascii -> bool) (s : string) : bool :=
  match s with EmptyString => true | String c r => f c && allc f r end.

Lemma allc_app f a b : allc f (a ++ b)%string = allc f a && allc f b.
Proof. induction a as [|c a IH]; cbn; [reflexivity|]. rewrite IH, andb_assoc. reflexivity. Qed.

Lemma str_of_Z_plain z : allc no_bracket (str_of_Z z) = true.
Proof.
  unfold str_of_Z, DecimalString.NilZero.string_of_int.
  assert (H : forall u, allc no_bracket (DecimalString.NilEmpty.string_of_uint u) = true)
    by (induction u; cbn; auto).
  assert (H' : forall u, allc no_bracket (DecimalString.NilZero.string_of_uint u) = true)
    by (intros []; cbn; auto).
  destruct (Z.to_int z) as [u|u]; cbn [allc]; rewrite ?H'; reflexivity.
Qed.

Lemma bracket_tail a b t t' :
  (a ++ String "[" t = b ++ String "[" t')%string -> allc no_bracket t = true -> allc no_bracket t' = true ->
  a = b /\ t = t'.
Proof.
  revert b. induction a as [|c a IH]; intros [|c' b] H Ht Ht'.
  - inversion H. auto.
  - exfalso. cbn in H. inversion H; subst. rewrite allc_app in Ht. cbn in Ht.
    rewrite andb_false_r in Ht. discriminate.
  - exfalso. cbn in H. inversion H; subst. rewrite allc_app in Ht'. cbn in Ht'.
    rewrite andb_false_r in Ht'. discriminate.
  - cbn in H. inversion H; subst. destruct (IH b) as [-> ->]; auto.
Qed.

Lemma digits_tail z : allc no_bracket (str_of_Z z ++ "]")%string = true.
Proof. rewrite allc_app, str_of_Z_plain. reflexivity. Qed.

Lemma app_tail_inj a b t : (a ++ t = b ++ t)%string -> a = b.
Proof.
  intros H. apply (f_equal list_ascii_of_string) in H.
  assert (A : forall u v, list_ascii_of_string (u ++ v)%string = list_ascii_of_string u ++ list_ascii_of_string v)
    by (induction u; intros; cbn; congruence).
  rewrite !A in H. apply app_inv_tail in H.
  rewrite <- (string_of_list_ascii_of_string a), <- (string_of_list_ascii_of_string b), H. reflexivity.
Qed.

Lemma str_of_Z_inj a b : str_of_Z a = str_of_Z b -> a = b.
Proof.
  unfold str_of_Z. intros H.
  apply (f_equal DecimalString.NilZero.int_of_string) in H.
  assert (R : forall z, DecimalString.NilZero.int_of_string (DecimalString.NilZero.string_of_int (Z.to_int z)) = Some (Z.to_int z)).
  { intros z. apply DecimalString.NilZero.isi; intros E; pose proof (DecimalZ.of_to z) as F; rewrite E in F;
      cbn in F; subst z; discriminate E. }
  rewrite !R in H. inversion H as [E]. apply (f_equal Z.of_int) in E. rewrite !DecimalZ.of_to in E. exact E.
Qed.

Lemma bit_label_inj l i l' i' : bit_label l i = bit_label l' i' -> l = l' /\ i = i'.
Proof.
  unfold bit_label. intros H.
  apply bracket_tail in H as [-> H]; [|apply digits_tail|apply digits_tail].
  split; [reflexivity|]. apply app_tail_inj, str_of_Z_inj in H. lia.
Qed.

Lemma bit_label_bracket l i : allc no_bracket (bit_label l i) = false.
Proof. unfold bit_label. rewrite allc_app. cbn. apply andb_false_r. Qed.

Lemma v_name_no_bracket v : allc no_bracket (v_name v) = true.
Proof.
  unfold v_name, sanitize. generalize (join_us (v_prefix v :: map str (v_index v))).
  induction s as [|c s IH]; [reflexivity|]. cbn [smap allc]. rewrite IH, andb_true_r.
  destruct c as [[] [] [] [] [] [] [] []]; reflexivity.
Qed.

Lemma v_name_not_bit v l i : v_name v <> bit_label l i.
Proof. intros E. pose proof (v_name_no_bracket v) as H. rewrite E, bit_label_bracket in H. discriminate. Qed.

(** ** Encoded integers *)

Definition boolean (f : string -> Q) : Prop := forall l, f l == 0 \/ f l == 1.

Definition low_bits (label : string) (d : nat) : list (string * Q) :=
  map (fun i => (bit_label label i, inject_Z (2 ^ Z.of_nat i))) (seq 0 d).

Definition tsum (l : list (string * Q)) (f : string -> Q) : Q := qsum (map (fun t => snd t * f (fst t)) l).

Lemma tsum_app l m f : tsum (l ++ m) f == tsum l f + tsum m f.
Proof. unfold tsum. rewrite map_app. apply qsum_app. Qed.

Lemma low_bits_S label d :
  low_bits label (S d) = low_bits label d ++ [(bit_label label d, inject_Z (2 ^ Z.of_nat d))].
Proof. unfold low_bits. rewrite seq_S, map_app. reflexivity. Qed.

Lemma pow_S d : (2 ^ Z.of_nat (S d) = 2 * 2 ^ Z.of_nat d)%Z.
Proof. rewrite Nat2Z.inj_succ, Z.pow_succ_r; lia. Qed.

Lemma tsum_one l q f : tsum [(l, q)] f == q * f l.
Proof. unfold tsum, qsum. cbn [map fold_right fst snd]. lra. Qed.

Lemma last_bit f l (w a : Z) : boolean f ->
  exists e : Z, (e = 0 \/ e = w)%Z /\ inject_Z a + inject_Z w * f l == inject_Z (a + e).
Proof.
  intros B. destruct (B l) as [H|H].
  - exists 0%Z. split; [auto|]. rewrite H, Z.add_0_r. lra.
  - exists w. split; [auto|]. rewrite H, inject_Z_plus. lra.
Qed.

Lemma low_range label d f : boolean f ->
  exists z, (0 <= z < 2 ^ Z.of_nat d)%Z /\ tsum (low_bits label d) f == inject_Z z.
Proof.
  intros B. induction d as [|d IH].
  - exists 0%Z. split; [cbn; lia|]. reflexivity.
  - destruct IH as (z & Hz & E). rewrite low_bits_S.
    destruct (last_bit f (bit_label label d) (2 ^ Z.of_nat d) z B) as (e & He & EE).
    exists (z + e)%Z. split; [rewrite pow_S; lia|]. rewrite tsum_app, E, tsum_one. exact EE.
Qed.

Lemma log_range label lo up a f : log_enc label lo up = Ok a -> boolean f ->
  exists z, (lo <= z <= up)%Z /\ lin_value a f == inject_Z z.
Proof.
  unfold log_enc. destruct (Z.leb_spec up lo); [discriminate|]. intros E B. inversion E; subst; clear E.
  unfold lin_value. cbn [l_terms l_off]. unfold log_bits.
  set (d := Z.to_nat (Z.log2 (up - lo))). fold (low_bits label d).
  fold (tsum (low_bits label d ++ [(bit_label label d, inject_Z (up - lo - (2 ^ Z.of_nat d - 1)))]) f).
  destruct (low_range label d f B) as (z & Hz & E).
  destruct (last_bit f (bit_label label d) (up - lo - (2 ^ Z.of_nat d - 1)) z B) as (e & He & EE).
  exists (lo + (z + e))%Z. split.
  - assert (2 ^ Z.of_nat d <= up - lo)%Z.
    { unfold d. rewrite Z2Nat.id by apply Z.log2_nonneg. apply (Z.log2_spec (up - lo)); lia. }
    lia.
  - rewrite tsum_app, E, tsum_one, EE, (inject_Z_plus lo). lra.
Qed.

(** Override of an assignment at one label *)
Definition at_label (l : string) (q : Q) (f : string -> Q) : string -> Q :=
  fun k => if eq_dec k l then q else f k.

Lemma tsum_ext l f g : (forall k, In k (map fst l) -> f k == g k) -> tsum l f == tsum l g.
Proof.
  intros H. apply qsum_ext. intros t Ht. rewrite H; [reflexivity|]. apply in_map. exact Ht.
Qed.

Lemma in_low_bits label d k : In k (map fst (low_bits label d)) <-> exists i, (i < d)%nat /\ k = bit_label label i.
Proof.
  unfold low_bits. rewrite map_map. cbn [fst]. rewrite in_map_iff. split.
  - intros (i & <- & H). apply in_seq in H. exists i. split; [lia|reflexivity].
  - intros (i & H & ->). exists i. split; [reflexivity|]. apply in_seq. lia.
Qed.

Lemma add_last (label : string) (d : nat) (w z e : Z) (f : string -> Q) :
  boolean f -> tsum (low_bits label d) f == inject_Z z -> (e = 0 \/ e = 1)%Z ->
  exists g, boolean g /\
    tsum (low_bits label d ++ [(bit_label label d, inject_Z w)]) g == inject_Z (z + e * w).
Proof.
  intros B E He. exists (at_label (bit_label label d) (inject_Z e) f). split.
  - intros l. unfold at_label. destruct (eq_dec l (bit_label label d)); [|apply B].
    destruct He as [->| ->]; [left|right]; reflexivity.
  - rewrite tsum_app, tsum_one. rewrite (tsum_ext (low_bits label d) _ f).
    + rewrite E. unfold at_label. destruct (eq_dec _ _) as [_|N]; [|congruence].
      rewrite inject_Z_plus, inject_Z_mult. lra.
    + intros k Hk. apply in_low_bits in Hk as (i & Hi & ->). unfold at_label.
      destruct (eq_dec _ _) as [EE|_]; [|reflexivity]. apply bit_label_inj in EE. lia.
Qed.

Lemma low_cover label d : forall z, (0 <= z < 2 ^ Z.of_nat d)%Z ->
  exists f, boolean f /\ tsum (low_bits label d) f == inject_Z z.
Proof.
  induction d as [|d IH]; intros z Hz.
  - exists (fun _ => 0). split; [left; reflexivity|]. assert (z = 0)%Z as -> by (cbn in Hz; lia). reflexivity.
  - rewrite pow_S in Hz. rewrite low_bits_S.
    destruct (Z_lt_le_dec z (2 ^ Z.of_nat d)).
    + destruct (IH z) as (f & B & E); [lia|].
      destruct (add_last label d (2 ^ Z.of_nat d) z 0 f B E (or_introl eq_refl)) as (g & BG & EG).
      exists g. split; [exact BG|]. rewrite EG. apply inject_Z_injective. lia.
    + destruct (IH (z - 2 ^ Z.of_nat d)%Z) as (f & B & E); [lia|].
      destruct (add_last label d (2 ^ Z.of_nat d) _ 1 f B E (or_intror eq_refl)) as (g & BG & EG).
      exists g. split; [exact BG|]. rewrite EG. apply inject_Z_injective. lia.
Qed.

Lemma log_cover label lo up a z : log_enc label lo up = Ok a -> (lo <= z <= up)%Z ->
  exists f, boolean f /\ lin_value a f == inject_Z z.
Proof.
  unfold log_enc. destruct (Z.leb_spec up lo) as [|L]; [discriminate|]. intros E Hz. inversion E; subst; clear E.
  unfold lin_value. cbn [l_terms l_off]. unfold log_bits.
  set (d := Z.to_nat (Z.log2 (up - lo))). fold (low_bits label d). set (w := (up - lo - (2 ^ Z.of_nat d - 1))%Z).
  assert (R : (2 ^ Z.of_nat d <= up - lo < 2 * 2 ^ Z.of_nat d)%Z).
  { rewrite <- pow_S, Nat2Z.inj_succ. unfold d. rewrite Z2Nat.id by apply Z.log2_nonneg.
    apply (Z.log2_spec (up - lo)); lia. }
  assert (G : exists g, boolean g /\
    tsum (low_bits label d ++ [(bit_label label d, inject_Z w)]) g == inject_Z (z - lo)).
  { destruct (Z_lt_le_dec (z - lo) (2 ^ Z.of_nat d)).
    - destruct (low_cover label d (z - lo)) as (f & B & E); [lia|].
      destruct (add_last label d w _ 0 f B E (or_introl eq_refl)) as (g & BG & EG).
      exists g. split; [exact BG|]. rewrite EG. apply inject_Z_injective. lia.
    - destruct (low_cover label d (z - lo - w)) as (f & B & E); [lia|].
      destruct (add_last label d w _ 1 f B E (or_intror eq_refl)) as (g & BG & EG).
      exists g. split; [exact BG|]. rewrite EG. apply inject_Z_injective. lia. }
  destruct G as (g & BG & EG). exists g. split; [exact BG|].
  fold (tsum (low_bits label d ++ [(bit_label label d, inject_Z w)]) g).
  rewrite EG. unfold Z.sub. rewrite inject_Z_plus, inject_Z_opp. lra.
Qed.

Lemma in_log_labels label lo up a k : log_enc label lo up = Ok a -> In k (map fst (l_terms a)) ->
  exists i, k = bit_label label i.
Proof.
  unfold log_enc. destruct (Z.leb_spec up lo); [discriminate|]. intros E H1. inversion E; subst; clear E.
  cbn [l_terms] in H1. unfold log_bits in H1. rewrite map_app, in_app_iff in H1. destruct H1 as [H1|H1].
  - apply in_low_bits in H1 as (i & _ & ->). eauto.
  - cbn in H1. destruct H1 as [<-|[]]. eauto.
Qed.

(** ** Energy of the expanded model *)

Section Energy.
  Variable f : string -> Q.

  Definition esum (b : bqm) : Q :=
    b_offset b + tsum (b_linear b) f
    + qsum (map (fun t => snd t * (f (fst (fst t)) * f (snd (fst t)))) (b_quadratic b)).

  Lemma add_to_sum {K} `{EqDec K} (g : K -> Q) k q d :
    qsum (map (fun t => snd t * g (fst t)) (add_to k q d)) == qsum (map (fun t => snd t * g (fst t)) d) + q * g k.
  Proof.
    unfold add_to, qsum. induction d as [|[k' r] d IH].
    - cbn [dget dset map fold_right fst snd]. lra.
    - cbn [dget dset]. destruct (eq_dec k k') as [->|N]; cbn [map fold_right fst snd]; [lra|].
      rewrite IH. lra.
  Qed.

  Lemma esum_linear u q b : esum (add_linear u q b) == esum b + q * f u.
  Proof. unfold esum, add_linear, tsum. cbn [b_offset b_linear b_quadratic]. rewrite add_to_sum. lra. Qed.

  Lemma esum_offset q b : esum (add_offset q b) == esum b + q.
  Proof. unfold esum, add_offset. cbn [b_offset b_linear b_quadratic]. lra. Qed.

  Hypothesis B : boolean f.

  Lemma esum_product u v q b : esum (add_product u v q b) == esum b + q * (f u * f v).
  Proof.
    unfold add_product. destruct (eqb u v) eqn:E.
    - apply eqb_eq in E. subst v. rewrite esum_linear. destruct (B u) as [F|F]; rewrite F; lra.
    - destruct (dmem (v, u) (b_quadratic b)); unfold esum; cbn [b_offset b_linear b_quadratic];
        rewrite (add_to_sum (fun k => f (fst k) * f (snd k))); cbn [fst snd]; lra.
  Qed.

  Lemma esum_lin k a b : esum (add_lin k a b) == esum b + k * lin_value a f.
  Proof.
    unfold add_lin, lin_value. rewrite esum_offset.
    assert (H : forall l b, esum (fold_left (fun acc t => add_linear (fst t) (k * snd t) acc) l b)
                == esum b + k * tsum l f).
    { induction l as [|t l IH]; intros b'; cbn [fold_left]; [unfold tsum, qsum; cbn [map fold_right]; lra|].
      rewrite IH, esum_linear. unfold tsum, qsum. cbn [map fold_right]. lra. }
    rewrite H. unfold tsum. lra.
  Qed.

  Lemma prod_sum (l m : list (string * Q)) :
    qsum (map (fun p => snd (fst p) * snd (snd p) * (f (fst (fst p)) * f (fst (snd p)))) (list_prod l m))
    == tsum l f * tsum m f.
  Proof.
    induction l as [|t l IH]; cbn [list_prod]; [unfold tsum, qsum; cbn [map fold_right]; lra|].
    rewrite map_app, qsum_app, IH, map_map. cbn [fst snd].
    rewrite (qsum_ext _ (fun y => (snd t * f (fst t)) * (snd y * f (fst y)))) by (intros; lra).
    rewrite qsum_scale. unfold tsum, qsum. cbn [map fold_right]. lra.
  Qed.

  Lemma esum_square k a b : esum (add_square k a b) == esum b + k * (lin_value a f * lin_value a f).
  Proof.
    unfold add_square. rewrite esum_offset.
    assert (H1 : forall l b, esum (fold_left (fun acc t => add_linear (fst t) (k * (2 * l_off a * snd t)) acc) l b)
                == esum b + k * (2 * l_off a * tsum l f)).
    { induction l as [|t l IH]; intros b'; cbn [fold_left]; [unfold tsum, qsum; cbn [map fold_right]; lra|].
      rewrite IH, esum_linear. unfold tsum, qsum. cbn [map fold_right]. lra. }
    assert (H2 : forall l b, esum (fold_left (fun acc (p : (string * Q) * (string * Q)) =>
                add_product (fst (fst p)) (fst (snd p)) (k * (snd (fst p) * snd (snd p))) acc) l b)
                == esum b + k * qsum (map (fun p => snd (fst p) * snd (snd p) * (f (fst (fst p)) * f (fst (snd p)))) l)).
    { induction l as [|t l IH]; intros b'; cbn [fold_left]; [unfold qsum; cbn [map fold_right]; lra|].
      rewrite IH, esum_product. unfold qsum. cbn [map fold_right]. lra. }
    rewrite H1, H2, prod_sum. unfold lin_value, tsum. lra.
  Qed.

  Definition summand_value (pdict : dict string Q) (m : summand) : Q :=
    match m with
    | Square ph a => weight pdict ph * (lin_value a f * lin_value a f)
    | Linear ph a => weight pdict ph * lin_value a f
    end.

  Lemma to_bqm_sum m pdict b : to_bqm m pdict = Ok b -> esum b == qsum (map (summand_value pdict) (m_sum m)).
  Proof.
    unfold to_bqm.
    assert (H : forall l b0 b, foldM (fun acc s =>
           match s with
           | Square ph a => match dget ph pdict with Some k => Ok (add_square k a acc) | None => Err OtherError end
           | Linear ph a => match dget ph pdict with Some k => Ok (add_lin k a acc) | None => Err OtherError end
           end) l b0 = Ok b -> esum b == esum b0 + qsum (map (summand_value pdict) l)).
    { induction l as [|s l IH]; intros b0 b1 H; cbn [foldM] in H.
      - inversion H. unfold qsum. cbn [map fold_right]. lra.
      - inv_bind H. rewrite (IH _ _ H). unfold qsum. cbn [map fold_right].
        destruct s as [ph a0|ph a0]; cbn [summand_value]; unfold weight; destruct (dget ph pdict); try discriminate;
          inversion E; subst.
        + rewrite esum_square. lra.
        + rewrite esum_lin. lra. }
    intros E. rewrite (H _ _ _ E). unfold esum, tsum, qsum, empty_bqm. cbn [b_offset b_linear b_quadratic map fold_right]. lra.
  Qed.
End Energy.
