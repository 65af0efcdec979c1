(** * SetFacts: facts about the functions that build the sets of trains *)

From Coq Require Import List String Ascii ZArith QArith Bool Arith Lia.
From Verif Require Import Base BaseFacts DataTables DataSets SpecTables SpecSets TableFacts.
Import ListNotations.
Open Scope string_scope.
Open Scope list_scope.

(** ** Blocks between stations *)

Lemma visits_once_nodup tt : visits_once tt <-> NoDup (train_important_stations tt).
Proof.
  split.
  - induction tt as [|r tt IH]; intros V; [constructor|].
    assert (V' : visits_once tt).
    { intros u a v b w s E. apply (V (r :: u) a v b w s). rewrite E. reflexivity. }
    change (r :: tt) with ([r] ++ tt). rewrite stations_app. simpl.
    destruct (r_station r) as [s|] eqn:E; simpl; [|apply IH; exact V'].
    constructor; [|apply IH; exact V'].
    intros H. apply stations_in in H as (r' & Hr & Es). apply in_split in Hr as (v & w & ->).
    apply (V [] r v r' w s eq_refl E Es).
  - intros ND u r v r' w s -> Er Er'.
    rewrite stations_app in ND. change (r :: v ++ r' :: w) with ([r] ++ v ++ [r'] ++ w) in ND.
    rewrite !stations_app in ND. simpl in ND. rewrite Er, Er' in ND. simpl in ND.
    apply NoDup_remove_2 in ND. apply ND. rewrite !in_app_iff. right. right. left. reflexivity.
Qed.

Lemma positions_app {A} (p : A -> bool) l m i :
  positions p (l ++ m) i = positions p l i ++ positions p m (i + List.length l).
Proof.
  revert i; induction l as [|x l IH]; intros i; simpl.
  - rewrite Nat.add_0_r. reflexivity.
  - rewrite IH. replace (S i + List.length l)%nat with (i + S (List.length l))%nat by lia.
    destruct (p x); reflexivity.
Qed.

Lemma positions_none {A} (p : A -> bool) l i : (forall x, In x l -> p x = false) -> positions p l i = [].
Proof.
  revert i; induction l as [|x l IH]; intros i H; simpl; auto.
  rewrite (H x) by (left; reflexivity). apply IH. intros; apply H; right; auto.
Qed.

Ltac assoc := repeat (simpl; rewrite <- app_assoc); reflexivity.

Lemma blocks_between tt s s2 mid :
  visits_once tt -> goes tt s s2 mid ->
  get_blocks_b2win_station4train tt s s2 = Ok (map r_block mid, Some false).
Proof.
  intros V (pre & r1 & r2 & post & -> & E1 & E2). pose proof V as ND. apply visits_once_nodup in ND.
  unfold get_blocks_b2win_station4train.
  set (tt := pre ++ r1 :: mid ++ r2 :: post) in *.
  assert (ST : train_important_stations tt =
     train_important_stations pre ++ s :: train_important_stations mid ++ s2 :: train_important_stations post).
  { unfold tt. rewrite stations_app. change (r1 :: mid ++ r2 :: post) with ([r1] ++ mid ++ [r2] ++ post).
    rewrite !stations_app. simpl. rewrite E1, E2. reflexivity. }
  assert (M1 : lmem s (train_important_stations tt) = true).
  { apply lmem_true. rewrite ST. apply in_app_iff. right. left. reflexivity. }
  assert (M2 : lmem s2 (train_important_stations tt) = true).
  { apply lmem_true. rewrite ST. apply in_app_iff. right. right. apply in_app_iff. right. left. reflexivity. }
  rewrite M1, M2. cbn [negb]. rewrite ST in ND |- *.
  rewrite lindex_mid.
  2:{ apply NoDup_remove_2 in ND. intros X. apply ND. apply in_app_iff. auto. }
  cbn [bind].
  change (train_important_stations pre ++ s :: train_important_stations mid ++ s2 :: train_important_stations post)
    with (train_important_stations pre ++ (s :: train_important_stations mid) ++ s2 :: train_important_stations post) in *.
  rewrite app_assoc in *. rewrite lindex_mid.
  2:{ apply NoDup_remove_2 in ND. intros X. apply ND. apply in_app_iff. auto. }
  cbn [bind]. rewrite app_length. cbn [List.length].
  assert (L : (List.length (train_important_stations pre) + S (List.length (train_important_stations mid)) <?
               List.length (train_important_stations pre))%nat = false) by (apply Nat.ltb_ge; lia).
  rewrite L. clear L.
  set (p := fun r => at_station s r || at_station s2 r).
  assert (P : positions p tt 0 = [List.length pre; (List.length pre + S (List.length mid))%nat]).
  { unfold tt. rewrite positions_app, positions_none.
    - simpl. unfold p at 1. unfold at_station. rewrite E1, eqb_refl. cbn [orb].
      rewrite positions_app, positions_none.
      + simpl. unfold p at 1. unfold at_station. rewrite E2, eqb_refl, orb_true_r. cbn [orb].
        rewrite positions_none.
        * simpl. f_equal. f_equal. lia.
        * intros x Hx. unfold p, at_station. destruct (r_station x) as [z|] eqn:Z; auto.
          apply orb_false_iff. split; apply eqb_false; intros ->.
          -- apply in_split in Hx as (w1 & w2 & ->).
             apply (V pre r1 (mid ++ r2 :: w1) x w2 s); auto. unfold tt; rewrite ?EQ; assoc.
          -- apply in_split in Hx as (w1 & w2 & ->).
             apply (V (pre ++ r1 :: mid) r2 w1 x w2 s2); auto. unfold tt; rewrite ?EQ; assoc.
      + intros x Hx. unfold p, at_station. destruct (r_station x) as [z|] eqn:Z; auto.
        apply in_split in Hx as (w1 & w2 & EQ).
        apply orb_false_iff. split; apply eqb_false; intros ->.
        * apply (V pre r1 w1 x (w2 ++ r2 :: post) s); auto. unfold tt; rewrite ?EQ; assoc.
        * apply (V (pre ++ r1 :: w1) x w2 r2 post s2); auto. unfold tt; rewrite ?EQ; assoc.
    - intros x Hx. unfold p, at_station. destruct (r_station x) as [z|] eqn:Z; auto.
      apply in_split in Hx as (w1 & w2 & EQ).
      apply orb_false_iff. split; apply eqb_false; intros ->.
      * apply (V w1 x w2 r1 (mid ++ r2 :: post) s); auto. unfold tt; rewrite ?EQ; assoc.
      * apply (V w1 x (w2 ++ r1 :: mid) r2 post s2); auto. unfold tt; rewrite ?EQ; assoc. }
  rewrite P. cbn [lnth nth_error bind]. unfold last1. simpl rev. cbn [bind].
  f_equal. f_equal. unfold path_of, tt.
  replace (map r_block (pre ++ r1 :: mid ++ r2 :: post))
    with (map r_block (pre ++ [r1]) ++ map r_block mid ++ map r_block (r2 :: post))
    by (rewrite <- !map_app, <- app_assoc; reflexivity).
  pose proof (slice_mid (map r_block (pre ++ [r1])) (map r_block mid) (map r_block (r2 :: post))) as SL.
  rewrite !map_length, app_length in SL. simpl List.length in SL.
  replace (List.length pre + S (List.length mid))%nat with (List.length pre + 1 + List.length mid)%nat by lia.
  exact SL.
Qed.

Lemma leaves_goes tt s s2 line : leaves tt s s2 line -> exists mid, goes tt s s2 mid /\ line = map r_block mid.
Proof.
  intros (pre & r1 & mid & r2 & post & E & E1 & E2 & _ & L). exists mid. split; [|exact L].
  exists pre, r1, r2, post. auto.
Qed.

Lemma leaves_blocks tt s s2 line : visits_once tt -> leaves tt s s2 line ->
  get_blocks_b2win_station4train tt s s2 = Ok (line, Some false).
Proof. intros V L. apply leaves_goes in L as (mid & G & ->). apply blocks_between; auto. Qed.

Lemma leaves_stations tt s s2 line : leaves tt s s2 line ->
  exists u v, train_important_stations tt = u ++ s :: s2 :: v.
Proof.
  intros (pre & r1 & mid & r2 & post & -> & E1 & E2 & N & _).
  exists (train_important_stations pre), (train_important_stations post).
  rewrite stations_app. change (r1 :: mid ++ r2 :: post) with ([r1] ++ mid ++ [r2] ++ post).
  rewrite !stations_app. simpl. rewrite E1, E2.
  assert (M : train_important_stations mid = []).
  { destruct (train_important_stations mid) as [|z l] eqn:Q; auto. exfalso.
    assert (H : passes mid z) by (apply stations_in; rewrite Q; left; reflexivity).
    destruct H as (x & Hx & Ex). rewrite (N x Hx) in Ex. discriminate. }
  rewrite M. reflexivity.
Qed.

Lemma stations_leaves tt u s s2 v : train_important_stations tt = u ++ s :: s2 :: v ->
  exists line, leaves tt s s2 line.
Proof.
  intros E. apply stations_split in E as (a & r & b & -> & Er & _ & Eb).
  apply (stations_split b [] s2 v) in Eb as (b1 & r' & c & -> & Er' & E1 & _).
  exists (map r_block b1), a, r, b1, r', c. repeat split; auto. intros x Hx.
  destruct (r_station x) as [z|] eqn:Z; auto. exfalso.
  assert (P : In z (train_important_stations b1)) by (apply stations_in; exists x; auto).
  rewrite E1 in P. destruct P.
Qed.

Lemma next_leaves tt s s2 : visits_once tt ->
  (next_station tt s = Ok (Some s2) <-> exists line, leaves tt s s2 line).
Proof.
  intros V. split.
  - intros H. apply next_station_ok in H as (u & v & E & _). eapply stations_leaves; eauto.
  - intros (line & L). apply leaves_stations in L as (u & v & E). eapply next_station_some; [exact E|].
    apply visits_once_nodup in V. rewrite E in V. apply NoDup_remove_2 in V. intros X. apply V.
    apply in_app_iff. auto.
Qed.

Lemma leaves_fun tt s s2 l l' : visits_once tt -> leaves tt s s2 l -> leaves tt s s2 l' -> l = l'.
Proof.
  intros V H H'. apply leaves_blocks in H; auto. apply leaves_blocks in H'; auto. congruence.
Qed.

Lemma leaves_neq tt s s2 l : visits_once tt -> leaves tt s s2 l -> s <> s2.
Proof.
  intros V (pre & r1 & mid & r2 & post & -> & E1 & E2 & _) ->.
  apply (V pre r1 mid r2 post s2 eq_refl E1 E2).
Qed.

(** ** Dictionaries filled station by station *)

Lemma fold_table {V} (p : string -> bool) (F : string -> res V) l : forall d0 d,
  foldM (fun d s => if p s then do v <- F s; Ok (dset s v d) else Ok d) l d0 = Ok d ->
  forall s v, dget s d = Some v <->
    (In s l /\ p s = true /\ F s = Ok v) \/
    (~ (In s l /\ p s = true) /\ dget s d0 = Some v).
Proof.
  induction l as [|x l IH]; intros d0 d H s v; simpl in H.
  - inversion H; subst. simpl. tauto.
  - inv_bind H. rewrite (IH _ _ H s v). destruct (p x) eqn:P.
    + inv_bind E. inversion E; subst a. rewrite dget_dset. destruct (eq_dec s x) as [->|N].
      * simpl. split.
        -- intros [(A & B & C)|[A B]]; [left; auto|]. left. split; [auto|]. split; [auto|]. congruence.
        -- intros [(A & B & C)|[A B]]; [|exfalso; apply A; auto].
           destruct (in_dec string_dec x l) as [I|I]; [left; auto|]. right. split; [tauto|]. congruence.
      * simpl. split.
        -- intros [(A & B & C)|[A B]]; [left; auto|]. right. split; [|exact B]. intros [[A1|A1] A2]; [congruence|tauto].
        -- intros [([A|A] & B & C)|[A B]]; [congruence|left; auto|]. right. split; [tauto|exact B].
    + inversion E; subst a. simpl. split.
      * intros [(A & B & C)|[A B]]; [left; auto|]. right. split; [|exact B].
        intros [[A1|A1] A2]; [congruence|tauto].
      * intros [([A|A] & B & C)|[A B]]; [congruence|left; auto|]. right. split; [tauto|exact B].
Qed.

Lemma fold_table_ok {V} (p : string -> bool) (F : string -> res V) l : forall d0,
  (forall s, In s l -> p s = true -> exists v, F s = Ok v) ->
  exists d, foldM (fun d s => if p s then do v <- F s; Ok (dset s v d) else Ok d) l d0 = Ok d.
Proof.
  induction l as [|x l IH]; intros d0 H; simpl; eauto.
  destruct (p x) eqn:P.
  - destruct (H x (or_introl eq_refl) P) as (v & ->). cbn [bind]. apply IH. intros; apply H; auto. right; auto.
  - cbn [bind]. apply IH. intros; apply H; auto. right; auto.
Qed.

Lemma asked_in st imp s : asked st imp s <-> In s (imp_stations_list st imp).
Proof. destruct imp; reflexivity. Qed.
