(** * FileFacts: reading back a schedule file *)

From Coq Require Import List String Ascii ZArith QArith Bool Arith Lia DecimalString DecimalPos DecimalZ.
From Verif Require Import Base BaseFacts DataTables SpecTables TableFacts.
Import ListNotations.
Open Scope string_scope.
Open Scope list_scope.

(** ** Numbers *)

Lemma digits_uint d : all_digits (NilZero.string_of_uint d) = true.
Proof.
  unfold NilZero.string_of_uint.
  assert (G : forall d, all_digits (NilEmpty.string_of_uint d) = true)
    by (induction d0; cbn; auto).
  destruct d; cbn [NilEmpty.string_of_uint]; try apply G; reflexivity.
Qed.

Lemma isnumeric_iff s : isnumeric s = true <-> number s.
Proof.
  assert (D : forall c, is_digit c = true <-> In c (list_ascii_of_string "0123456789")).
  { intros c. split.
    - destruct c as [[] [] [] [] [] [] [] []]; vm_compute; intros H; first [discriminate|tauto].
    - cbn. intros H. repeat (destruct H as [<-|H]; [reflexivity|]). destruct H. }
  assert (A : forall t, all_digits t = true <-> forall c, In c (list_ascii_of_string t) -> In c (list_ascii_of_string "0123456789")).
  { induction t as [|c t IH]; cbn [all_digits list_ascii_of_string].
    - split; [intros _ c []|reflexivity].
    - rewrite andb_true_iff, D, IH. split.
      + intros [H1 H2] c' [<-|H]; auto.
      + intros H. split; [apply H; left; reflexivity|]. intros c' Hc. apply H. right. exact Hc. }
  unfold isnumeric, number. destruct s as [|c s]; [split; [discriminate|intros [H _]; congruence]|].
  rewrite A. split; [intros H; split; [discriminate|exact H]|intros [_ H]; exact H].
Qed.

Lemma not_numeric s : ~ number s -> isnumeric s = false.
Proof. intros H. destruct (isnumeric s) eqn:E; [|reflexivity]. apply isnumeric_iff in E. contradiction. Qed.

Lemma isnumeric_number z : (0 <= z)%Z -> isnumeric (str_of_Z z) = true.
Proof.
  intros H. unfold str_of_Z. destruct z as [|p|p]; [reflexivity| |lia].
  cbn [Z.to_int NilZero.string_of_int].
  assert (D := digits_uint (Pos.to_uint p)). unfold isnumeric.
  destruct (NilZero.string_of_uint (Pos.to_uint p)) eqn:E; [|exact D].
  exfalso. revert E. unfold NilZero.string_of_uint. destruct (Pos.to_uint p); discriminate.
Qed.

Lemma int_of_str_number z : (0 <= z)%Z -> int_of_str (str_of_Z z) = Ok z.
Proof.
  intros H. unfold int_of_str, str_of_Z. rewrite NilZero.isi.
  - rewrite DecimalZ.of_to. reflexivity.
  - destruct z as [|p|p]; cbn; try discriminate.
    intros E. inversion E as [E1]. revert E1. destruct (Pos.to_uint p) eqn:U; try discriminate.
    intros _. apply (DecimalPos.Unsigned.to_uint_nonnil p). exact U.
  - destruct z as [|p|p]; cbn; try discriminate; lia.
Qed.

(** ** Beginnings of lines *)

Lemma substring_prefix p s :
  substring 0 (String.length p) s = p <-> starts p s.
Proof.
  revert s; induction p as [|c p IH]; intros s; simpl.
  - split; [intros _; exists s; reflexivity|]. intros _. destruct s; reflexivity.
  - destruct s as [|d s]; simpl.
    + split; [discriminate|]. intros (r & H); discriminate.
    + split.
      * intros H; inversion H as [[H1 H2]]. rewrite H2. apply IH in H2. destruct H2 as (r & ->).
        exists r. reflexivity.
      * intros (r & H). inversion H; subst. f_equal. apply IH. exists r. reflexivity.
Qed.

Lemma from_true h : starts "from" h \/ starts "depa" h ->
  lmem (substring 0 4 h) ["from"; "depa"] = true.
Proof.
  intros H. apply lmem_true. simpl. destruct H as [H|H]; apply substring_prefix in H; simpl in H; auto.
Qed.

Lemma from_false h : ~ starts "from" h -> ~ starts "depa" h ->
  lmem (substring 0 4 h) ["from"; "depa"] = false.
Proof.
  intros H1 H2. apply lmem_false. simpl. intros [E|[E|[]]]; symmetry in E.
  - apply H1. apply (substring_prefix "from"). exact E.
  - apply H2. apply (substring_prefix "depa"). exact E.
Qed.

Lemma to_true h : starts "to" h \/ starts "te" h -> lmem (substring 0 2 h) ["to"; "te"] = true.
Proof.
  intros H. apply lmem_true. simpl. destruct H as [H|H]; apply substring_prefix in H; simpl in H; auto.
Qed.

Lemma to_false h : ~ starts "to" h -> ~ starts "te" h -> lmem (substring 0 2 h) ["to"; "te"] = false.
Proof.
  intros H1 H2. apply lmem_false. simpl. intros [E|[E|[]]]; symmetry in E.
  - apply H1. apply (substring_prefix "to"). exact E.
  - apply H2. apply (substring_prefix "te"). exact E.
Qed.

Lemma to_ordinary h : starts "to" h \/ starts "te" h -> ordinary h.
Proof.
  intros [(r & ->)|(r & ->)]; (split; [intros N; apply isnumeric_iff in N; discriminate|]); split; intros (q & E); inversion E.
Qed.

Lemma from_not_number h : starts "from" h \/ starts "depa" h -> isnumeric h = false.
Proof. intros [(r & ->)|(r & ->)]; reflexivity. Qed.

Lemma digits_first h : isnumeric h = true -> ~ starts "from" h /\ ~ starts "depa" h.
Proof. intros H; split; intros (r & ->); discriminate. Qed.

(** ** Steps of the loop *)

Lemma nth_mid {A} (u : list A) x v : nth_error (u ++ x :: v) (List.length u) = Some x.
Proof. rewrite nth_error_app2 by lia. rewrite Nat.sub_diag. reflexivity. Qed.

Lemma step_ordinary data st i h : head_at data i = Ok (Some h) -> ordinary h ->
  ttd_step data st i = Ok st.
Proof.
  intros E (N & F & D). apply not_numeric in N. unfold ttd_step. rewrite E. cbn [bind as_str]. rewrite N. cbn [bind].
  rewrite from_false by assumption. reflexivity.
Qed.

Lemma head_mid u h v : head_at (u ++ bare h :: v) (List.length u) = Ok (Some h).
Proof. unfold head_at. rewrite nth_mid. reflexivity. Qed.

Lemma find_to_ok rows t v :
  (forall r, In r rows -> ~ starts "to" (r_block r) /\ ~ starts "te" (r_block r)) ->
  (starts "to" t \/ starts "te" t) ->
  find_to (map block_line rows ++ bare t :: v) = Ok (List.length rows, t).
Proof.
  intros H T. induction rows as [|r rows IH]; cbn [map app find_to ln_head bare block_line bind as_str].
  - rewrite to_true by exact T. reflexivity.
  - rewrite to_false by (apply H; left; reflexivity). rewrite IH by (intros; apply H; right; auto).
    reflexivity.
Qed.

Lemma rows_back rows :
  (forall r, In r rows -> r_pass r = None /\ r_station r = None) ->
  rows_of_lines (map block_line rows) = rows.
Proof.
  intros H. induction rows as [|r rows IH]; simpl; auto. rewrite IH by (intros; apply H; right; auto).
  f_equal. unfold row_of_line, block_line; simpl. destruct (H r (or_introl eq_refl)) as [E1 E2].
  destruct r; simpl in *. subst. reflexivity.
Qed.

Lemma fold_ordinary data : forall l u v st,
  data = u ++ l ++ v -> (forall x, In x l -> exists h, ln_head x = Some h /\ ordinary h) ->
  foldM (ttd_step data) (seq (List.length u) (List.length l)) st = Ok st.
Proof.
  induction l as [|x l IH]; intros u v st E H; simpl; auto.
  destruct (H x (or_introl eq_refl)) as (h & Eh & Oh).
  rewrite (step_ordinary _ _ _ h); auto.
  - simpl. specialize (IH (u ++ [x]) v st). rewrite app_length in IH. simpl in IH.
    replace (List.length u + 1)%nat with (S (List.length u)) in IH by lia. apply IH.
    + rewrite E, <- app_assoc. reflexivity.
    + intros y Hy. apply H. right. exact Hy.
  - unfold head_at. rewrite E. simpl. rewrite nth_mid, Eh. reflexivity.
Qed.

Definition entry (x : train_text) : Z * (list string * table) :=
  (x_number x, ([x_kind x; x_name x; x_from x; x_to x], x_blocks x)).

Lemma sharps : ordinary "####".
Proof. split; [intros N; apply isnumeric_iff in N; discriminate|]. split; intros (r & E); discriminate. Qed.

Lemma seq_split n a b : seq n (a + b) = seq n a ++ seq (n + a) b.
Proof. apply seq_app. Qed.

(** One train *)
Lemma fold_written x : well_written x -> forall u v i d,
  exists i', foldM (ttd_step (u ++ written x ++ v)) (seq (List.length u) (List.length (written x))) (i, d)
    = Ok (i', dset (x_number x) (snd (entry x)) d).
Proof.
  intros (NN & OK & ON & HF & HT & HB) u v i d. set (data := u ++ written x ++ v).
  set (n := List.length u).
  assert (L : List.length (written x) = (5 + (List.length (map block_line (x_blocks x)) + 1))%nat)
    by (unfold written; rewrite !app_length; simpl; lia).
  rewrite L, seq_split, foldM_app.
  assert (D : data = u ++ bare "####" :: bare (x_kind x) :: bare (str_of_Z (x_number x)) ::
                bare (x_name x) :: bare (x_from x) :: (map block_line (x_blocks x) ++ [bare (x_to x)]) ++ v)
    by reflexivity.
  assert (H0 : head_at data n = Ok (Some "####")) by (rewrite D; apply head_mid).
  assert (HH : forall k y, nth_error (written x) k = Some (bare y) -> head_at data (n + k) = Ok (Some y)).
  { intros k y Hk. unfold head_at, data, n. rewrite nth_error_app2 by lia.
    replace (List.length u + k - List.length u)%nat with k by lia.
    rewrite nth_error_app1 by (apply nth_error_Some; congruence). rewrite Hk. reflexivity. }
  assert (H1 := HH 1%nat (x_kind x) eq_refl). assert (H2 := HH 2%nat (str_of_Z (x_number x)) eq_refl).
  assert (H3 := HH 3%nat (x_name x) eq_refl). assert (H4 := HH 4%nat (x_from x) eq_refl).
  cbn [seq foldM]. rewrite (step_ordinary _ _ _ _ H0 sharps). cbn [bind].
  replace (S n) with (n + 1)%nat by lia. rewrite (step_ordinary _ _ _ _ H1 OK). cbn [bind].
  replace (S (n + 1)) with (n + 2)%nat by lia.
  assert (S2 : ttd_step data (i, d) (n + 2) =
               Ok (Some (x_number x, [x_kind x; x_name x; x_from x]), d)).
  { unfold ttd_step. rewrite H2. cbn [bind as_str].
    assert (NM := isnumeric_number _ NN). rewrite NM. rewrite int_of_str_number by exact NN. cbn [bind].
    replace (Nat.eqb (n + 2) 0) with false by (symmetry; apply Nat.eqb_neq; lia).
    replace (n + 2 - 1)%nat with (n + 1)%nat by lia. rewrite H1. cbn [bind].
    replace (n + 2 + 1)%nat with (n + 3)%nat by lia. rewrite H3. cbn [bind].
    replace (n + 2 + 2)%nat with (n + 4)%nat by lia. rewrite H4. cbn [bind as_str snd].
    destruct (digits_first _ NM). rewrite from_false by assumption. reflexivity. }
  rewrite S2. cbn [bind].
  replace (S (n + 2)) with (n + 3)%nat by lia. rewrite (step_ordinary _ _ _ _ H3 ON). cbn [bind].
  replace (S (n + 3)) with (n + 4)%nat by lia.
  assert (SK : skipn (n + 4 + 1) data = map block_line (x_blocks x) ++ bare (x_to x) :: v).
  { replace data with ((u ++ [bare "####"; bare (x_kind x); bare (str_of_Z (x_number x));
       bare (x_name x); bare (x_from x)]) ++ map block_line (x_blocks x) ++ bare (x_to x) :: v)
      by (rewrite D; rewrite <- !app_assoc; reflexivity).
    replace (n + 4 + 1)%nat with (List.length (u ++ [bare "####"; bare (x_kind x);
       bare (str_of_Z (x_number x)); bare (x_name x); bare (x_from x)]))
      by (rewrite app_length; simpl; unfold n; lia).
    apply skipn_app_exact. }
  assert (S4 : ttd_step data (Some (x_number x, [x_kind x; x_name x; x_from x]), d) (n + 4) =
               Ok (Some (x_number x, [x_kind x; x_name x; x_from x; x_to x]),
                   dset (x_number x) (snd (entry x)) d)).
  { unfold ttd_step. rewrite H4. cbn [bind as_str]. rewrite (from_not_number _ HF). cbn [bind].
    rewrite from_true by exact HF. rewrite SK.
    rewrite find_to_ok by (auto; intros r Hr; destruct (HB r Hr) as (_ & A & B & _); auto).
    cbn [bind fst snd app]. unfold slice. rewrite SK.
    replace (n + 4 + 1 + List.length (x_blocks x) - (n + 4 + 1))%nat
      with (List.length (map block_line (x_blocks x))) by (rewrite map_length; lia).
    rewrite firstn_app_exact, rows_back by (intros r Hr; destruct (HB r Hr) as (_ & _ & _ & A); exact A).
    reflexivity. }
  rewrite S4. cbn [bind].
  eexists. assert (FO := fold_ordinary data (map block_line (x_blocks x) ++ [bare (x_to x)])
    (u ++ [bare "####"; bare (x_kind x); bare (str_of_Z (x_number x)); bare (x_name x); bare (x_from x)]) v).
  rewrite !app_length in FO. simpl in FO. fold n in FO. rewrite <- plus_n_O in FO || idtac. apply FO.
  - rewrite D, <- !app_assoc. reflexivity.
  - intros y Hy. apply in_app_iff in Hy as [Hy|[<-|[]]].
    + apply in_map_iff in Hy as (r & <- & Hr). exists (r_block r). split; [reflexivity|].
      apply (HB r Hr).
    + exists (x_to x). split; [reflexivity|]. apply to_ordinary. exact HT.
Qed.

Lemma fold_file : forall l u i d,
  (forall x, In x l -> well_written x) -> NoDup (map x_number l) ->
  (forall x, In x l -> ~ In (x_number x) (dkeys d)) ->
  exists i', foldM (ttd_step (u ++ flat_map written l))
    (seq (List.length u) (List.length (flat_map written l))) (i, d) = Ok (i', d ++ map entry l).
Proof.
  induction l as [|x l IH]; intros u i d W ND F; cbn [flat_map map].
  - exists i. rewrite List.app_nil_r with (l := d). reflexivity.
  - rewrite app_length, seq_split, foldM_app.
    destruct (fold_written x (W x (or_introl eq_refl)) u (flat_map written l) i d) as (i' & E).
    change (foldM (ttd_step (u ++ written x ++ flat_map written l))
      (seq (List.length u) (List.length (written x))) (i, d) =
      Ok (i', dset (x_number x) (snd (entry x)) d)) in E.
    rewrite E. cbn [bind]. rewrite dset_absent by (apply F; left; reflexivity).
    inversion ND; subst.
    destruct (IH (u ++ written x) i' (d ++ [(x_number x, snd (entry x))])) as (i2 & E2); auto.
    + intros y Hy. apply W. right. exact Hy.
    + intros y Hy. unfold dkeys. rewrite map_app. rewrite in_app_iff. simpl. intros [A|[A|[]]].
      * apply (F y); [right; exact Hy|exact A].
      * apply H1. rewrite A. apply in_map. exact Hy.
    + rewrite app_length in E2. rewrite <- !app_assoc in E2. exists i2.
      change (d ++ [(x_number x, snd (entry x))] ++ map entry l) with (d ++ entry x :: map entry l) in E2.
      exact E2.
Qed.

(** Without a condition on the numbers *)
Lemma fold_any : forall l u i d,
  (forall x, In x l -> well_written x) ->
  exists i', foldM (ttd_step (u ++ flat_map written l))
    (seq (List.length u) (List.length (flat_map written l))) (i, d) =
    Ok (i', fold_left (fun d x => dset (x_number x) (snd (entry x)) d) l d).
Proof.
  induction l as [|x l IH]; intros u i d W; cbn [flat_map fold_left].
  - exists i. reflexivity.
  - rewrite app_length, seq_split, foldM_app.
    destruct (fold_written x (W x (or_introl eq_refl)) u (flat_map written l) i d) as (i' & E).
    change (foldM (ttd_step (u ++ written x ++ flat_map written l))
      (seq (List.length u) (List.length (written x))) (i, d) =
      Ok (i', dset (x_number x) (snd (entry x)) d)) in E.
    rewrite E. cbn [bind].
    destruct (IH (u ++ written x) i' (dset (x_number x) (snd (entry x)) d)) as (i2 & E2).
    + intros y Hy. apply W. right. exact Hy.
    + rewrite app_length in E2. rewrite <- !app_assoc in E2. exists i2. exact E2.
Qed.
