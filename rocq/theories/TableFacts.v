(** * TableFacts: lemmas about the model of the timetable functions *)

From Coq Require Import List String Ascii ZArith QArith Bool Arith Lia DecimalString DecimalZ.
From Verif Require Import Base BaseFacts DataTables SpecTables.
Import ListNotations.
Open Scope string_scope.
Open Scope list_scope.

(** ** Lists *)

Lemma rev_snoc {A} (l : list A) x : rev (l ++ [x]) = x :: rev l.
Proof. rewrite rev_app_distr. reflexivity. Qed.

Lemma rev_cons_inv {A} (l : list A) x r : rev l = x :: r -> l = rev r ++ [x].
Proof. intros H. rewrite <- (rev_involutive l), H. reflexivity. Qed.

Lemma last1_snoc {A} (l : list A) x : last1 (l ++ [x]) = Ok x.
Proof. unfold last1. rewrite rev_snoc. reflexivity. Qed.

Lemma last1_ok {A} (l : list A) x : last1 l = Ok x -> exists f, l = f ++ [x].
Proof.
  unfold last1. destruct (rev l) as [|y r] eqn:E; intros H; inversion H; subst.
  apply rev_cons_inv in E. eauto.
Qed.

Lemma last2_ok {A} (l : list A) x : last2 l = Ok x -> exists f y, l = f ++ [x; y].
Proof.
  unfold last2. destruct (rev l) as [|y [|z r]] eqn:E; intros H; inversion H; subst.
  apply rev_cons_inv in E. exists (rev r), y. rewrite E. simpl. rewrite <- app_assoc. reflexivity.
Qed.

Lemma skipn_app_exact {A} (l m : list A) : skipn (List.length l) (l ++ m) = m.
Proof. induction l; simpl; auto. Qed.

Lemma firstn_app_exact {A} (l m : list A) : firstn (List.length l) (l ++ m) = l.
Proof. induction l; simpl; [destruct m; reflexivity|]. rewrite IHl. reflexivity. Qed.

Lemma slice_mid {A} (u m v : list A) :
  slice (List.length u) (List.length u + List.length m) (u ++ m ++ v) = m.
Proof.
  unfold slice. rewrite skipn_app_exact.
  replace (List.length u + List.length m - List.length u)%nat with (List.length m) by lia.
  apply firstn_app_exact.
Qed.

Lemma filter_none {A} (p : A -> bool) l : (forall x, In x l -> p x = false) -> filter p l = [].
Proof.
  induction l as [|x l IH]; simpl; auto. intros H. rewrite (H x) by auto. apply IH. auto.
Qed.

Lemma filter_all {A} (p : A -> bool) l : (forall x, In x l -> p x = true) -> filter p l = l.
Proof.
  induction l as [|x l IH]; simpl; auto. intros H. rewrite (H x) by auto. f_equal. apply IH. auto.
Qed.

Lemma filter_first {A} (p : A -> bool) l x r :
  filter p l = x :: r -> exists u v, l = u ++ x :: v /\ p x = true /\ forall y, In y u -> p y = false.
Proof.
  induction l as [|y l IH]; simpl; [discriminate|]. destruct (p y) eqn:E.
  - intros H; inversion H; subst. exists [], l. simpl. tauto.
  - intros H. destruct (IH H) as (u & v & -> & Hx & Hu). exists (y :: u), v. split; [reflexivity|].
    split; auto. intros z [<-|Hz]; auto.
Qed.

(** ** Stations of a timetable *)

Lemma stations_app a b :
  train_important_stations (a ++ b) = train_important_stations a ++ train_important_stations b.
Proof.
  induction a as [|r a IH]; simpl; auto. rewrite IH. destruct (r_station r); reflexivity.
Qed.

Lemma stations_in tt s : In s (train_important_stations tt) <-> passes tt s.
Proof.
  unfold passes. induction tt as [|r tt IH]; simpl.
  - split; [tauto|]. intros (r & [] & _).
  - destruct (r_station r) as [s'|] eqn:E; simpl; rewrite IH; split.
    + intros [->|(x & Hx & Ex)]; [exists r; auto|exists x; auto].
    + intros (x & [->|Hx] & Ex); [left; congruence|right; exists x; auto].
    + intros (x & Hx & Ex); exists x; auto.
    + intros (x & [->|Hx] & Ex); [congruence|exists x; auto].
Qed.

(** Every split of the path comes from rows of the timetable. *)
Lemma stations_split tt u s v :
  train_important_stations tt = u ++ s :: v ->
  exists a r b, tt = a ++ r :: b /\ r_station r = Some s /\
    train_important_stations a = u /\ train_important_stations b = v.
Proof.
  revert u; induction tt as [|r tt IH]; intros u H; simpl in H; [destruct u; discriminate|].
  destruct (r_station r) as [s'|] eqn:E.
  - destruct u as [|x u]; simpl in H; inversion H; subst.
    + exists [], r, tt. repeat split; auto.
    + destruct (IH u H2) as (a & w & b & -> & Ew & Ea & Eb). exists (r :: a), w, b.
      repeat split; auto. simpl. rewrite E, Ea. reflexivity.
  - destruct (IH u H) as (a & w & b & -> & Ew & Ea & Eb). exists (r :: a), w, b.
    repeat split; auto. simpl. rewrite E, Ea. reflexivity.
Qed.

Lemma get_block_station_ok st b s :
  stations_apart st -> (get_block_station b st = Some s <-> in_station st b s).
Proof.
  intros [ND U]. unfold get_block_station.
  destruct (filter (fun kv => lmem b (snd kv)) st) as [|[k bs] r] eqn:E.
  - split; [discriminate|]. intros (bs & Hs & Hb). exfalso.
    assert (H : In (s, bs) (filter (fun kv => lmem b (snd kv)) st))
      by (apply filter_In; split; [exact Hs|apply lmem_true; exact Hb]).
    rewrite E in H. destruct H.
  - assert (H : In (k, bs) st /\ lmem b bs = true).
    { assert (H : In (k, bs) (filter (fun kv => lmem b (snd kv)) st)) by (rewrite E; left; auto).
      apply filter_In in H. exact H. }
    destruct H as [Hk Hb]. apply lmem_true in Hb. assert (I : in_station st b k) by (exists bs; auto).
    simpl. split.
    + intros H; inversion H; subst. exact I.
    + intros H. f_equal. apply (U b); auto.
Qed.

Lemma dget_map {K A B} `{EqDec K} (f : A -> B) (d : dict K A) k :
  dget k (map (fun e => (fst e, f (snd e))) d) = option_map f (dget k d).
Proof.
  induction d as [|[a b] d IH]; simpl; auto. destruct (eq_dec k a); auto.
Qed.

Lemma runs_in td t tt : NoDup (dkeys td) -> (runs td t tt <-> exists info, In (t, (info, tt)) td).
Proof.
  intros ND. unfold runs. split; intros (i & H); exists i.
  - apply dget_in. exact H.
  - apply in_dget; auto.
Qed.

Lemma time_table_ok td t tt : train_time_table td t = Ok tt <-> runs td t tt.
Proof.
  unfold train_time_table, runs, dlookup. destruct (dget t td) as [[i x]|] eqn:E; simpl.
  - split; intros H; [inversion H; exists i; reflexivity|]. destruct H as (j & H). inversion H; reflexivity.
  - split; [discriminate|]. intros (j & H). discriminate.
Qed.

Lemma runs_fun td t a b : runs td t a -> runs td t b -> a = b.
Proof. intros (i & H) (j & H'). congruence. Qed.

(** ** Following station *)

Lemma next_station_ok tt s o : next_station tt s = Ok o ->
  match o with
  | Some s2 => exists u v, train_important_stations tt = u ++ s :: s2 :: v /\ ~ In s u
  | None => ~ passes tt s \/ (exists u, train_important_stations tt = u ++ [s] /\ ~ In s u)
  end.
Proof.
  unfold next_station. destruct (lmem s (train_important_stations tt)) eqn:M; simpl.
  2:{ intros H; inversion H; subst. left. rewrite <- stations_in. apply lmem_false. exact M. }
  intros H. inv_bind H. apply lindex_spec in E as [E1 E2].
  set (sts := train_important_stations tt) in *.
  apply nth_error_split in E1 as (u & v & Hs & Hl).
  assert (NI : ~ In s u).
  { intros Hu. apply In_nth_error in Hu as (m & Hm). assert (m < List.length u)%nat
      by (apply nth_error_Some; congruence).
    apply (E2 m); [lia|]. rewrite Hs, nth_error_app1 by lia. exact Hm. }
  destruct (Nat.eqb a (List.length sts - 1)) eqn:N.
  - inversion H; subst o. right. exists u. split; [|exact NI].
    apply Nat.eqb_eq in N. destruct v as [|x v]; auto. exfalso.
    rewrite Hs, app_length in N. simpl in N. lia.
  - inv_bind H. inversion H; subst o. unfold lnth in E.
    destruct (nth_error sts (a + 1)) as [x|] eqn:X; inversion E; subst.
    exists u. destruct v as [|y v].
    + rewrite Hs in X. rewrite nth_error_app2 in X by lia.
      replace (List.length u + 1 - List.length u)%nat with 1%nat in X by lia. discriminate.
    + exists v. rewrite Hs in X. rewrite nth_error_app2 in X by lia.
      replace (List.length u + 1 - List.length u)%nat with 1%nat in X by lia. simpl in X.
      inversion X; subst. split; auto.
Qed.

Lemma lindex_mid {A} `{EqDec A} (u v : list A) s : ~ In s u ->
  lindex s (u ++ s :: v) = Ok (List.length u).
Proof.
  induction u as [|x u IH]; simpl; intros N.
  - destruct (eq_dec s s); congruence.
  - destruct (eq_dec s x); [subst; tauto|]. rewrite IH by tauto. reflexivity.
Qed.

Lemma next_station_some tt u s s2 v :
  train_important_stations tt = u ++ s :: s2 :: v -> ~ In s u ->
  next_station tt s = Ok (Some s2).
Proof.
  intros E N. unfold next_station. rewrite E.
  assert (M : lmem s (u ++ s :: s2 :: v) = true) by (apply lmem_true; apply in_app_iff; simpl; auto).
  rewrite M. simpl. rewrite lindex_mid by exact N. simpl.
  rewrite app_length. simpl. replace (Nat.eqb _ _) with false by (symmetry; apply Nat.eqb_neq; lia).
  unfold lnth. rewrite nth_error_app2 by lia.
  replace (List.length u + 1 - List.length u)%nat with 1%nat by lia. reflexivity.
Qed.

Lemma in_split_first {A} `{EqDec A} (x : A) l : In x l -> exists u v, l = u ++ x :: v /\ ~ In x u.
Proof.
  induction l as [|y l IH]; simpl; [tauto|]. intros HI. destruct (eq_dec x y) as [->|N].
  - exists [], l. auto.
  - destruct HI as [->|HI]; [congruence|]. destruct (IH HI) as (u & v & -> & NI).
    exists (y :: u), v. split; auto. intros [->|]; congruence || tauto.
Qed.

Lemma next_station_total tt s : exists o, next_station tt s = Ok o.
Proof.
  unfold next_station. destruct (lmem s (train_important_stations tt)) eqn:M; simpl; eauto.
  apply lmem_true in M. destruct (in_split_first _ _ M) as (u & v & -> & N).
  rewrite lindex_mid by exact N. simpl. rewrite app_length. simpl.
  destruct v as [|x v]; simpl.
  - replace (Nat.eqb _ _) with true by (symmetry; apply Nat.eqb_eq; lia). eauto.
  - replace (Nat.eqb _ _) with false by (symmetry; apply Nat.eqb_neq; lia).
    unfold lnth. rewrite nth_error_app2 by lia.
    replace (List.length u + 1 - List.length u)%nat with 1%nat by lia. simpl. eauto.
Qed.

(** ** Common parts *)

Lemma common_loop_acc l2 : forall l1 short found,
  exists out, common_loop l1 l2 short found = found ++ out.
Proof.
  induction l1 as [|x l1 IH]; intros short found; simpl.
  - exists []. rewrite app_nil_r. reflexivity.
  - destruct (lmem x l2); [|apply IH].
    destruct (sublist (short ++ [x]) l2 && negb (Nat.eqb (List.length l1) 0)); [apply IH|].
    destruct (IH [] (found ++ [short ++ [x]])) as (out & ->). exists ([short ++ [x]] ++ out).
    rewrite app_assoc. reflexivity.
Qed.

Lemma concat_snoc {A} (l : list (list A)) x : List.concat (l ++ [x]) = List.concat l ++ x.
Proof. rewrite concat_app. simpl. rewrite app_nil_r. reflexivity. Qed.

(** What is returned, put together, is the common elements up to some point. *)
Lemma common_loop_prefix l2 : forall l1 short found,
  exists tail, List.concat found ++ short ++ common_elements l1 l2
    = List.concat (common_loop l1 l2 short found) ++ tail.
Proof.
  induction l1 as [|x l1 IH]; intros short found; simpl.
  - exists short. rewrite app_nil_r. reflexivity.
  - destruct (lmem x l2); [|apply IH].
    destruct (sublist (short ++ [x]) l2 && negb (Nat.eqb (List.length l1) 0)).
    + destruct (IH (short ++ [x]) found) as (t & E). exists t. rewrite <- E, <- app_assoc. reflexivity.
    + destruct (IH [] (found ++ [short ++ [x]])) as (t & E). exists t. rewrite <- E.
      rewrite concat_snoc, <- !app_assoc. simpl. reflexivity.
Qed.

(** Nothing is left over if the last element of the first list is common. *)
Lemma common_loop_whole l2 y : lmem y l2 = true -> forall l1 short found,
  List.concat found ++ short ++ common_elements (l1 ++ [y]) l2
    = List.concat (common_loop (l1 ++ [y]) l2 short found).
Proof.
  intros Hy. induction l1 as [|x l1 IH]; intros short found; simpl.
  - rewrite Hy. rewrite andb_false_r. rewrite concat_snoc. reflexivity.
  - destruct (lmem x l2); [|apply IH].
    destruct (sublist (short ++ [x]) l2 && negb (Nat.eqb (List.length (l1 ++ [y])) 0)).
    + rewrite <- IH, <- !app_assoc. reflexivity.
    + rewrite <- IH, concat_snoc, <- !app_assoc. reflexivity.
Qed.

Lemma common_none l2 : forall l1 short found,
  (forall x, In x l1 -> ~ In x l2) -> common_loop l1 l2 short found = found.
Proof.
  induction l1 as [|x l1 IH]; intros short found H; simpl; auto.
  assert (E : lmem x l2 = false) by (apply lmem_false; apply H; left; reflexivity).
  rewrite E. apply IH. intros y Hy. apply H. right. exact Hy.
Qed.

Lemma common_nonempty l2 : forall l1 short found p,
  (forall q, In q found -> q <> []) -> In p (common_loop l1 l2 short found) -> p <> [].
Proof.
  induction l1 as [|x l1 IH]; intros short found p F; simpl; auto.
  destruct (lmem x l2); [|apply IH; exact F].
  destruct (sublist (short ++ [x]) l2 && negb (Nat.eqb (List.length l1) 0)); apply IH; auto.
  intros q Hq. apply in_app_iff in Hq as [Hq|[<-|[]]]; auto. destruct short; discriminate.
Qed.

(** [jd] uses the test only in this form. *)
Lemma common_all l1 l2 :
  flatten (check_common_specific_elements_lists l1 l2) = l1 <-> forall x, In x l1 -> In x l2.
Proof.
  unfold flatten, check_common_specific_elements_lists. split.
  - intros E x Hx. destruct (common_loop_prefix l2 l1 [] []) as (t & P). simpl in P.
    rewrite E in P. assert (I : In x (common_elements l1 l2))
      by (rewrite P; apply in_app_iff; left; exact Hx).
    apply filter_In in I as [_ I]. apply lmem_true. exact I.
  - intros H. destruct (rev l1) as [|y r] eqn:L.
    + assert (l1 = []) by (rewrite <- (rev_involutive l1), L; reflexivity). subst. reflexivity.
    + apply rev_cons_inv in L. subst l1.
      assert (Hy : lmem y l2 = true) by (apply lmem_true; apply H; apply in_app_iff; simpl; auto).
      pose proof (common_loop_whole l2 y Hy (rev r) [] []) as W. simpl in W. rewrite <- W.
      apply filter_all. intros x Hx. apply lmem_true. auto.
Qed.
