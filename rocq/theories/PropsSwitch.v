(** * PropsSwitch: claims about switch conflicts and turnaround pairs (C42, C43) *)

From Coq Require Import List String Ascii ZArith QArith Bool Arith Lia.
From Verif Require Import Base BaseFacts DataTables DataSets SpecTables SpecSets TableFacts SetFacts PropsTables PropsSets.
Import ListNotations.
Open Scope string_scope.
Open Scope list_scope.

(** ** Reading cells *)

Lemma read_switch_ok c l : read_switch c = Ok l -> forall z, In z l <-> cell_has c z.
Proof.
  destruct c as [n|m|n|w f|]; simpl; intros H z; try discriminate.
  - inversion H. simpl. intuition.
  - inversion H. tauto.
  - assert (X : exists g, int_of_str f = Ok g /\ l = [w; g]).
    { destruct f as [|c f]; [inv_bind H; inversion H; eauto|].
      destruct c as [[] [] [] [] [] [] [] []]; try (inv_bind H; inversion H; eauto; fail).
      destruct f; [inv_bind H; inversion H; eauto|discriminate]. }
    destruct X as (g & E & ->). simpl. rewrite E. split.
    + intros [X|[X|[]]]; [left; auto|right; congruence].
    + intros [X|X]; [left; auto|right; left; congruence].
Qed.

Lemma positions_in {A} (p : A -> bool) l i k :
  In k (positions p l i) <-> exists m x, (k = i + m)%nat /\ nth_error l m = Some x /\ p x = true.
Proof.
  revert i; induction l as [|x l IH]; intros i; simpl.
  - split; [tauto|]. intros (m & y & _ & N & _). destruct m; discriminate.
  - assert (S : In k (positions p l (S i)) <-> exists m y, (k = i + S m)%nat /\ nth_error l m = Some y /\ p y = true).
    { rewrite IH. split; intros (m & y & A1 & B & C); exists m, y; repeat split; auto; lia. }
    destruct (p x) eqn:P; simpl; rewrite S; split.
    + intros [<-|(m & y & A1 & B & C)]; [exists 0%nat, x; repeat split; auto; lia|]. exists (Datatypes.S m), y. auto.
    + intros (m & y & A1 & B & C). destruct m; [left; lia|]. right. exists m, y. auto.
    + intros (m & y & A1 & B & C). exists (Datatypes.S m), y. auto.
    + intros (m & y & A1 & B & C). destruct m; [simpl in B; inversion B; subst; congruence|]. exists m, y. auto.
Qed.

Lemma between_ok net a b l : one_row_each net -> a <> b -> switches_between net a b = Ok l ->
  forall z, In z l <-> exists n, In n net /\ row_for n a b /\ cell_has (n_switch n) z.
Proof.
  intros [NL U] AB H z. unfold switches_between in H. cbn [block_indices_to_interprete_switches] in H.
  match type of H with switches_at _ ?p = _ => set (pos := p) in * end.
  assert (POS : forall k, In k pos <-> exists n, nth_error net k = Some n /\ row_for n a b).
  { intros k. unfold pos, common_elements. rewrite filter_In, lmem_true, !in_app_iff, !positions_in. split.
    - intros [X Y].
      assert (X' : exists n, nth_error net k = Some n /\ (n_prev n = b \/ n_next n = b)).
      { destruct X as [(m & n & -> & B & C)|(m & n & -> & B & C)]; apply eqb_eq in C; exists n; auto. }
      assert (Y' : exists n, nth_error net k = Some n /\ (n_prev n = a \/ n_next n = a)).
      { destruct Y as [(m & n & -> & B & C)|(m & n & -> & B & C)]; apply eqb_eq in C; exists n; auto. }
      destruct X' as (n & N1 & X'). destruct Y' as (n' & N2 & Y'). rewrite N1 in N2. inversion N2; subst n'.
      exists n. split; auto. unfold row_for. destruct X' as [X'|X'], Y' as [Y'|Y']; try congruence; auto.
    - intros (n & N & [[A B]|[A B]]).
      + split; [right|left]; exists k, n; rewrite eqb_true; auto.
      + split; [left|right]; exists k, n; rewrite eqb_true; auto. }
  assert (UNIQ : forall k k', In k pos -> In k' pos -> k = k').
  { assert (LT : forall k k', (k < k')%nat -> In k pos -> In k' pos -> False).
    { intros k k' L Hk Hk'. apply POS in Hk as (n & N & R). apply POS in Hk' as (n' & N' & R').
      apply nth_error_split in N as (u & w & EQ & LU). rewrite EQ in N'.
      rewrite nth_error_app2 in N' by lia. destruct (k' - List.length u)%nat as [|i] eqn:I; [lia|].
      simpl in N'. apply nth_error_split in N' as (v & x & EW & _). subst w.
      destruct (U u n v n' x EQ) as [U1 U2].
      destruct R as [[A B]|[A B]], R' as [[A' B']|[A' B']]; [apply U1|apply U2|apply U2|apply U1]; split; congruence. }
    intros k k' Hk Hk'. destruct (Nat.lt_trichotomy k k') as [X|[X|X]]; auto; exfalso; eauto. }
  assert (FI : forall ps acc r, switches_at net [] = Ok [] /\
     (foldM (fun _ p => do n <- lnth net p; read_switch (n_switch n)) ps acc = Ok r ->
      (ps = [] /\ r = acc) \/ exists k n, In k ps /\ nth_error net k = Some n /\ read_switch (n_switch n) = Ok r)).
  { induction ps as [|p ps IH]; intros acc r; (split; [reflexivity|]); simpl; intros X.
    - inversion X. auto.
    - inv_bind X. inv_bind E. destruct (proj2 (IH a0 r) X) as [[-> ->]|(k & n & Hk & N & R)].
      + right. unfold lnth in E0. destruct (nth_error net p) eqn:NP; [|discriminate]. inversion E0; subst.
        exists p, a1. auto.
      + right. exists k, n. auto. }
  unfold switches_at in H. destruct (proj2 (FI pos [] l) H) as [[EP ->]|(k & n & Hk & N & R)].
  - split; [intros []|]. intros (n & Hn & RF & _). apply In_nth_error in Hn as (k & N).
    assert (X : In k pos) by (apply POS; eauto). rewrite EP in X. destruct X.
  - rewrite (read_switch_ok _ _ R z). split.
    + intros C. exists n. split; [eapply nth_error_In; eauto|]. split; auto.
      apply POS in Hk as (n' & N' & RF). congruence.
    + intros (n' & Hn & RF & C). apply In_nth_error in Hn as (k' & N').
      assert (X : In k' pos) by (apply POS; eauto). rewrite (UNIQ k k' Hk X) in N. congruence.
Qed.

(** ** Entry and exit routes *)

(** A train that passes a station of one block: its row there, and its path around it *)
Lemma station_row td st s bs t tt : stations_apart st -> In (s, bs) st ->
  annotated st tt -> visits_once tt -> passes tt s -> runs td t tt ->
  exists pre r post rest, tt = pre ++ r :: post /\ r_station r = Some s /\
    track_of td bs t = r_block r :: rest /\
    ~ In (r_block r) (path_of pre) /\ ~ In (r_block r) (path_of post).
Proof.
  intros SA HS AN VO (r & Hr & Er) (i & R).
  assert (ROW : forall x, In x tt -> In (r_block x) bs -> r_station x = Some s).
  { intros x Hx Hb. apply (AN x s Hx). exists bs. auto. }
  assert (HB : In (r_block r) bs).
  { apply (station_unique st s bs (r_block r) SA HS). apply (AN r s Hr). exact Er. }
  assert (UQ : forall x, In x tt -> In (r_block x) bs -> x = r).
  { intros x Hx Hb. apply ROW in Hb; auto. apply in_split in Hr as (u & v & ->).
    apply in_app_iff in Hx as [Hx|[Hx|Hx]]; auto; exfalso; apply in_split in Hx as (u1 & u2 & EQ).
    - apply (VO u1 x u2 r v s); auto. rewrite EQ. assoc.
    - apply (VO u r u1 x u2 s); auto. rewrite EQ. reflexivity. }
  assert (AW : exists rest, track_of td bs t = r_block r :: rest).
  { unfold track_of. rewrite R.
    assert (IT : In (r_block r) (filter (fun b => lmem b (path_of tt)) bs)).
    { apply filter_In. split; auto. apply lmem_true. apply uses_path. exists r. auto. }
    destruct (filter (fun b => lmem b (path_of tt)) bs) as [|b rest] eqn:F; [destruct IT|].
    assert (IB : In b (filter (fun b => lmem b (path_of tt)) bs)) by (rewrite F; left; reflexivity).
    apply filter_In in IB as [IB1 IB2]. apply lmem_true in IB2. apply uses_path in IB2 as (x & Hx & Ex).
    assert (x = r) by (apply UQ; auto; rewrite Ex; exact IB1). subst. eauto. }
  destruct AW as (rest & AW). pose proof Hr as Hr'. apply in_split in Hr' as (pre & post & EQ).
  exists pre, r, post, rest. split; auto. split; auto. split; auto. split.
  - intros X. apply uses_path in X as (x & Hx & Ex). apply in_split in Hx as (u1 & u2 & E1).
    assert (IX : In x tt) by (rewrite EQ, E1, !in_app_iff; left; right; left; reflexivity).
    apply (VO u1 x u2 r post s); [rewrite EQ, E1; assoc| |exact Er]. apply ROW; auto. rewrite Ex. exact HB.
  - intros X. apply uses_path in X as (x & Hx & Ex). apply in_split in Hx as (u1 & u2 & E1).
    assert (IX : In x tt) by (rewrite EQ, E1, in_app_iff; right; right; apply in_app_iff; right; left; reflexivity).
    apply (VO pre r u1 x u2 s); [rewrite EQ, E1; reflexivity|exact Er|]. apply ROW; auto. rewrite Ex. exact HB.
Qed.

Lemma scan_ok {A} (f : A -> nat * string -> res A) (b0 : string) u v w acc :
  (forall acc n b, b <> b0 -> f acc (n, b) = Ok acc) -> ~ In b0 u -> ~ In b0 v ->
  foldM f (combine (seq w (List.length (u ++ b0 :: v))) (u ++ b0 :: v)) acc
  = f acc ((w + List.length u)%nat, b0).
Proof.
  intros F NU NV. assert (SK : forall l k acc, ~ In b0 l -> foldM f (combine (seq k (List.length l)) l) acc = Ok acc).
  { induction l as [|x l IH]; intros k ac N; auto.
    cbn [List.length seq combine foldM]. rewrite F; [|intros ->; apply N; left; reflexivity].
    cbn [bind]. apply IH; intros X; apply N; right; exact X. }
  revert w; induction u as [|x u IH]; intros w; cbn [app List.length seq combine foldM].
  - rewrite Nat.add_0_r. destruct (f acc (w, b0)) as [a|e] eqn:E; cbn [bind]; auto.
  - rewrite F; [|intros ->; apply NU; left; reflexivity].
    cbn [bind]. rewrite IH; [do 2 f_equal; lia|]. intros X. apply NU. right. exact X.
Qed.

Lemma stations_nil pre : train_important_stations pre = [] <-> forall r, In r pre -> r_station r = None.
Proof.
  split.
  - intros E r Hr. destruct (r_station r) as [z|] eqn:Z; auto. exfalso.
    assert (X : In z (train_important_stations pre)) by (apply stations_in; exists r; auto). rewrite E in X. destruct X.
  - intros H. destruct (train_important_stations pre) as [|z l] eqn:Q; auto. exfalso.
    assert (X : passes pre z) by (apply stations_in; rewrite Q; left; reflexivity).
    destruct X as (x & Hx & Ex). rewrite (H x Hx) in Ex. discriminate.
Qed.

Lemma row_unique tt pre r post pre' r' post' s : visits_once tt ->
  tt = pre ++ r :: post -> tt = pre' ++ r' :: post' -> r_station r = Some s -> r_station r' = Some s ->
  pre = pre' /\ r = r' /\ post = post'.
Proof.
  intros V E E' S S'. assert (X : List.length pre = List.length pre').
  { destruct (Nat.lt_trichotomy (List.length pre) (List.length pre')) as [L|[L|L]]; auto; exfalso.
    - assert (N : nth_error tt (List.length pre') = Some r').
      { rewrite E', nth_error_app2, Nat.sub_diag by lia. reflexivity. }
      rewrite E, nth_error_app2 in N by lia. destruct (List.length pre' - List.length pre)%nat as [|i] eqn:I; [lia|].
      simpl in N. apply nth_error_split in N as (v & w & EW & _). subst post. apply (V pre r v r' w s); auto.
    - assert (N : nth_error tt (List.length pre) = Some r).
      { rewrite E, nth_error_app2, Nat.sub_diag by lia. reflexivity. }
      rewrite E', nth_error_app2 in N by lia. destruct (List.length pre - List.length pre')%nat as [|i] eqn:I; [lia|].
      simpl in N. apply nth_error_split in N as (v & w & EW & _). subst post'. apply (V pre' r' v r w s); auto. }
  rewrite E in E'. assert (Y : firstn (List.length pre) (pre ++ r :: post) = firstn (List.length pre) (pre' ++ r' :: post')) by congruence.
  rewrite firstn_app_exact in Y. rewrite X, firstn_app_exact in Y. subst pre'. apply app_inv_head in E'.
  inversion E'. auto.
Qed.

Lemma z_in_ok net s pre r post rest l : one_row_each net -> visits_once (pre ++ r :: post) ->
  r_station r = Some s -> ~ In (r_block r) (path_of pre) -> ~ In (r_block r) (path_of post) ->
  z_in net s (train_important_stations (pre ++ r :: post)) (r_block r :: rest) (path_of (pre ++ r :: post)) = Ok l ->
  forall z, In z l <-> enters_over net (pre ++ r :: post) s z.
Proof.
  intros OR V Er N1 N2 H z. unfold z_in in H. cbn [lnth nth_error bind] in H.
  pose proof V as ND. apply visits_once_nodup in ND.
  rewrite stations_app in ND, H. change (r :: post) with ([r] ++ post) in ND, H. rewrite stations_app in ND, H.
  simpl train_important_stations in ND, H. rewrite Er in ND, H. simpl app in ND, H.
  assert (NS : ~ In s (train_important_stations pre)).
  { apply NoDup_remove_2 in ND. intros X. apply ND. apply in_app_iff. auto. }
  rewrite (lindex_mid (train_important_stations pre) (train_important_stations post) s NS) in H. cbn [bind] in H.
  replace (path_of (pre ++ r :: post)) with (path_of pre ++ r_block r :: path_of post) in H
    by (unfold path_of; rewrite map_app; reflexivity).
  inv_bind H. rewrite (scan_ok _ (r_block r) (path_of pre) (path_of post) 0) in E; auto;
    [|intros acc n b NE; simpl; rewrite (proj2 (eqb_false _ _) NE); destruct (snd acc); reflexivity].
  cbn [fst snd] in E. rewrite eqb_refl in E. change (0 + List.length (path_of pre))%nat with (List.length (path_of pre)) in E.
  destruct (Nat.eqb (List.length (train_important_stations pre)) 0) eqn:Z0.
  - inversion E; subst a. simpl in H. inversion H; subst l. simpl. split; [tauto|].
    intros (p & r1 & r' & q & n & EQ & Es & (r0 & Hr0 & S0) & _).
    change (p ++ r1 :: r' :: q) with (p ++ [r1] ++ r' :: q) in EQ. rewrite app_assoc in EQ.
    destruct (row_unique _ _ _ _ _ _ _ s V eq_refl EQ Er Es) as (-> & _ & _).
    apply Nat.eqb_eq in Z0. apply length_zero_iff_nil in Z0. apply S0. eapply stations_nil; eauto.
  - destruct pre as [|x pre] using rev_ind; [discriminate|]. clear IHpre.
    unfold path_of at 1 in E. rewrite map_app, app_length in E. simpl List.length in E.
    assert (NZ : (List.length (map r_block pre) + 1 =? 0)%nat = false) by (apply Nat.eqb_neq; lia).
    unfold path_of in E. rewrite !map_app in E. simpl map in E.
    rewrite app_length in E. simpl List.length in E. rewrite NZ in E.
    assert (PB : lnth ((map r_block pre ++ [r_block x]) ++ r_block r :: map r_block post)
                   (List.length (map r_block pre) + 1 - 1) = Ok (r_block x)).
    { unfold lnth. rewrite <- app_assoc. rewrite nth_error_app2 by lia.
      replace (List.length (map r_block pre) + 1 - 1 - List.length (map r_block pre))%nat with 0%nat by lia. reflexivity. }
    rewrite PB in E. cbn [bind] in E. inv_bind E. inversion E; subst a. simpl in H. inversion H; subst a0. clear H E.
    assert (XR : r_block x <> r_block r).
    { intros X. apply N1. unfold path_of. rewrite map_app. apply in_app_iff. right. left. exact X. }
    rewrite (between_ok net _ _ l OR XR E0 z). split.
    + intros (n & Hn & RF & C). exists pre, x, r, post, n. split; [assoc|]. split; auto.
      split; [|auto]. apply Nat.eqb_neq in Z0.
      destruct (train_important_stations (pre ++ [x])) as [|q ql] eqn:Q; [simpl in Z0; congruence|].
      assert (X : passes (pre ++ [x]) q) by (apply stations_in; rewrite Q; left; reflexivity).
      destruct X as (y & Hy & Ey). exists y. split; auto. congruence.
    + intros (p & r1 & r' & q & n & EQ & Es & _ & Hn & RF & C).
      change (p ++ r1 :: r' :: q) with (p ++ [r1] ++ r' :: q) in EQ. rewrite app_assoc in EQ.
      destruct (row_unique _ _ _ _ _ _ _ s V eq_refl EQ Er Es) as (E1 & <- & _).
      apply app_inj_tail in E1 as [_ <-]. exists n. auto.
Qed.

Lemma z_out_ok net s pre r post rest l : one_row_each net -> visits_once (pre ++ r :: post) ->
  r_station r = Some s -> ~ In (r_block r) (path_of pre) -> ~ In (r_block r) (path_of post) ->
  z_out net s (train_important_stations (pre ++ r :: post)) (r_block r :: rest) (path_of (pre ++ r :: post)) = Ok l ->
  forall z, In z l <-> exits_over net (pre ++ r :: post) s z.
Proof.
  intros OR V Er N1 N2 H z. unfold z_out in H. cbn [lnth nth_error bind] in H.
  pose proof V as ND. apply visits_once_nodup in ND.
  rewrite stations_app in ND, H. change (r :: post) with ([r] ++ post) in ND, H. rewrite stations_app in ND, H.
  simpl train_important_stations in ND, H. rewrite Er in ND, H. simpl app in ND, H.
  assert (NS : ~ In s (train_important_stations pre)).
  { apply NoDup_remove_2 in ND. intros X. apply ND. apply in_app_iff. auto. }
  rewrite (lindex_mid (train_important_stations pre) (train_important_stations post) s NS) in H. cbn [bind] in H.
  replace (path_of (pre ++ r :: post)) with (path_of pre ++ r_block r :: path_of post) in H
    by (unfold path_of; rewrite map_app; reflexivity).
  inv_bind H. rewrite (scan_ok _ (r_block r) (path_of pre) (path_of post) 0) in E; auto;
    [|intros acc n b NE; simpl; rewrite (proj2 (eqb_false _ _) NE); destruct (snd acc); reflexivity].
  cbn [fst snd] in E. rewrite eqb_refl in E. change (0 + List.length (path_of pre))%nat with (List.length (path_of pre)) in E.
  rewrite app_length in E. simpl List.length in E.
  destruct (Nat.eqb (List.length (train_important_stations pre))
             (List.length (train_important_stations pre) + S (List.length (train_important_stations post)) - 1)) eqn:Z0.
  - inversion E; subst a. simpl in H. inversion H; subst l. simpl. split; [tauto|].
    intros (p & r' & r2 & q & n & EQ & Es & (r0 & Hr0 & S0) & _).
    destruct (row_unique _ _ _ _ _ _ _ s V eq_refl EQ Er Es) as (_ & _ & ->).
    apply Nat.eqb_eq in Z0. assert (L : List.length (train_important_stations (r2 :: q)) = 0%nat) by lia.
    apply length_zero_iff_nil in L. apply S0. eapply stations_nil; eauto.
  - apply Nat.eqb_neq in Z0. destruct post as [|x post]; [simpl in Z0; lia|].
    assert (PB : lnth (path_of pre ++ r_block r :: path_of (x :: post)) (List.length (path_of pre) + 1) = Ok (r_block x)).
    { unfold lnth. rewrite nth_error_app2 by lia.
      replace (List.length (path_of pre) + 1 - List.length (path_of pre))%nat with 1%nat by lia. reflexivity. }
    rewrite PB in E. cbn [bind] in E. inv_bind E. inversion E; subst a. simpl in H. inversion H; subst a0. clear H E.
    assert (XR : r_block r <> r_block x).
    { intros X. apply N2. left. symmetry. exact X. }
    rewrite (between_ok net _ _ l OR XR E0 z). split.
    + intros (n & Hn & RF & C). exists pre, r, x, post, n. split; auto. split; auto.
      split; [|auto].
      destruct (train_important_stations (x :: post)) as [|q ql] eqn:Q; [simpl List.length in Z0; lia|].
      assert (X : passes (x :: post) q) by (apply stations_in; rewrite Q; left; reflexivity).
      destruct X as (y & Hy & Ey). exists y. split; auto. congruence.
    + intros (p & r' & r2 & q & n & EQ & Es & _ & Hn & RF & C).
      destruct (row_unique _ _ _ _ _ _ _ s V eq_refl EQ Er Es) as (_ & <- & E2).
      inversion E2; subst. exists n. auto.
Qed.

(** ** The pairs of one station *)

Lemma next_total tt s : exists o, next_station tt s = Ok o.
Proof.
  unfold next_station. destruct (lmem s (train_important_stations tt)) eqn:M; simpl; [|eauto].
  apply lmem_true in M. destruct (proj1 (lindex_in _ _) M) as (i & L). rewrite L. cbn [bind].
  destruct (Nat.eqb i (List.length (train_important_stations tt) - 1)) eqn:E; [eauto|].
  apply Nat.eqb_neq in E. apply lindex_spec in L as [L _]. assert (B : nth_error (train_important_stations tt) i <> None) by congruence. apply nth_error_Some in B.
  unfold lnth. destruct (nth_error (train_important_stations tt) (i + 1)) eqn:N; [simpl; eauto|].
  apply nth_error_None in N. lia.
Qed.

Lemma share_ok a b : share a b = true <-> exists z, In z a /\ In z b.
Proof.
  unfold share. rewrite existsb_exists. split; intros (z & X & Y); exists z; split; auto; apply lmem_true; auto.
Qed.

Lemma counted_in tt s n0 : visits_once tt -> next_station tt non_repeating_0 = Ok n0 ->
  ~ In s non_repeating_singles ->
  (counted tt s "in" <-> negb (eqb s non_repeating_1) || negb (eqb n0 (Some s)) = true).
Proof.
  intros V E NS. rewrite orb_true_iff, !negb_true_iff, !eqb_false. unfold non_repeating_1.
  assert (L : n0 = Some s <-> exists line, leaves tt "KO" s line).
  { rewrite <- (next_leaves tt "KO" s V). unfold non_repeating_0 in E. rewrite E. split; congruence. }
  simpl in NS. split.
  - intros (_ & _ & C). destruct (string_dec s "KO(STM)") as [X|X]; auto. right. intros Y.
    apply L in Y as (line & Y). exact (proj1 (C X) eq_refl line Y).
  - intros C. repeat split; [intros ->; tauto|intros ->; tauto| |discriminate].
    intros _ line X. destruct C as [C|C]; [contradiction|]. apply C. apply L. eauto.
Qed.

Lemma counted_out tt s n0 : visits_once tt -> next_station tt s = Ok n0 ->
  ~ In s non_repeating_singles ->
  (counted tt s "out" <-> negb (eqb s non_repeating_1) || negb (eqb n0 (Some non_repeating_0)) = true).
Proof.
  intros V E NS. rewrite orb_true_iff, !negb_true_iff, !eqb_false. unfold non_repeating_1, non_repeating_0.
  assert (L : n0 = Some "KO" <-> exists line, leaves tt s "KO" line).
  { rewrite <- (next_leaves tt s "KO" V). rewrite E. split; congruence. }
  simpl in NS. split.
  - intros (_ & _ & C). destruct (string_dec s "KO(STM)") as [X|X]; auto. right. intros Y.
    apply L in Y as (line & Y). exact (proj2 (C X) eq_refl line Y).
  - intros C. repeat split; [intros ->; tauto|intros ->; tauto|discriminate|].
    intros _ line X. destruct C as [C|C]; [contradiction|]. apply C. apply L. eauto.
Qed.

Lemma pair_ok net s tt tt' j j' i o i' o' : visits_once tt -> visits_once tt' ->
  ~ In s non_repeating_singles ->
  (forall z, In z i <-> enters_over net tt s z) -> (forall z, In z o <-> exits_over net tt s z) ->
  (forall z, In z i' <-> enters_over net tt' s z) -> (forall z, In z o' <-> exits_over net tt' s z) ->
  exists new, make_jswitch_dict tt tt' s j j' i i' o o' = Ok new /\ NoDup new /\
    forall e, In e new <-> exists a b, e = [(j, a); (j', b)] /\ switch_conflict net s tt a tt' b.
Proof.
  intros V V' NS HI HO HI' HO'. unfold make_jswitch_dict.
  destruct (next_total tt non_repeating_0) as (n0 & E1). destruct (next_total tt' non_repeating_0) as (n0' & E2).
  destruct (next_total tt s) as (n1 & E3). destruct (next_total tt' s) as (n1' & E4).
  rewrite E1, E2, E3, E4. cbn [bind]. cbv zeta.
  pose proof (counted_in tt s n0 V E1 NS) as CI. pose proof (counted_in tt' s n0' V' E2 NS) as CI'.
  pose proof (counted_out tt s n1 V E3 NS) as CO. pose proof (counted_out tt' s n1' V' E4 NS) as CO'.
  set (f := negb (eqb s non_repeating_1)) in *.
  assert (B : forall a b l l' c c', (forall z, In z l <-> goes_over net tt s a z) ->
      (forall z, In z l' <-> goes_over net tt' s b z) ->
      (counted tt s a <-> f || c = true) -> (counted tt' s b <-> f || c' = true) ->
      (share l l' && (f || (c && c')) = true <-> switch_conflict net s tt a tt' b)).
  { intros a b l l' c c' L L' C C'. unfold switch_conflict. rewrite C, C', andb_true_iff, share_ok.
    rewrite !orb_true_iff, andb_true_iff. split.
    - intros [(z & X & Y) W]. split; [tauto|]. split; [tauto|]. exists z. rewrite <- L, <- L'. auto.
    - intros (X & Y & z & W & W'). split; [|tauto]. exists z. rewrite L, L'. auto. }
  assert (GI : forall z, In z i <-> goes_over net tt s "in" z).
  { intros z. rewrite HI. unfold goes_over. split; [auto|]. intros [[_ X]|[X _]]; [auto|discriminate]. }
  assert (GO : forall z, In z o <-> goes_over net tt s "out" z).
  { intros z. rewrite HO. unfold goes_over. split; [auto|]. intros [[X _]|[_ X]]; [discriminate|auto]. }
  assert (GI' : forall z, In z i' <-> goes_over net tt' s "in" z).
  { intros z. rewrite HI'. unfold goes_over. split; [auto|]. intros [[_ X]|[X _]]; [auto|discriminate]. }
  assert (GO' : forall z, In z o' <-> goes_over net tt' s "out" z).
  { intros z. rewrite HO'. unfold goes_over. split; [auto|]. intros [[X _]|[_ X]]; [discriminate|auto]. }
  assert (B1 := B _ _ _ _ _ _ GI GI' CI CI'). assert (B2 := B _ _ _ _ _ _ GI GO' CI CO').
  assert (B3 := B _ _ _ _ _ _ GO GI' CO CI'). assert (B4 := B _ _ _ _ _ _ GO GO' CO CO').
  eexists. split; [reflexivity|].
  set (b1 := share i i' && _) in *. set (b2 := share i o' && _) in *.
  set (b3 := share o i' && _) in *. set (b4 := share o o' && _) in *.
  split.
  - destruct b1, b2, b3, b4; repeat constructor; simpl; intuition congruence.
  - intros e. split.
    + rewrite !in_app_iff. intros [X|[X|[X|X]]].
      * destruct b1; [destruct X as [X|[]]|destruct X]. exists "in", "in". split; [auto|]. apply B1. reflexivity.
      * destruct b2; [destruct X as [X|[]]|destruct X]. exists "in", "out". split; [auto|]. apply B2. reflexivity.
      * destruct b3; [destruct X as [X|[]]|destruct X]. exists "out", "in". split; [auto|]. apply B3. reflexivity.
      * destruct b4; [destruct X as [X|[]]|destruct X]. exists "out", "out". split; [auto|]. apply B4. reflexivity.
    + intros (a & b & -> & X). pose proof X as (_ & _ & z & Y & Y'). rewrite !in_app_iff.
      destruct Y as [[-> _]|[-> _]], Y' as [[-> _]|[-> _]].
      * apply B1 in X. rewrite X. left. left. reflexivity.
      * apply B2 in X. rewrite X. right. left. left. reflexivity.
      * apply B3 in X. rewrite X. right. right. left. left. reflexivity.
      * apply B4 in X. rewrite X. right. right. right. left. reflexivity.
Qed.

Lemma fold_concat {A B} (F : A -> res (list B)) l : forall acc r,
  foldM (fun vec p => do new <- F p; Ok (vec ++ new)) l acc = Ok r ->
  exists news, Forall2 (fun p new => F p = Ok new) l news /\ r = acc ++ List.concat news.
Proof.
  induction l as [|x l IH]; intros acc r H; simpl in H.
  - inversion H. exists []. split; [constructor|]. simpl. rewrite app_nil_r. reflexivity.
  - inv_bind H. inv_bind E. inversion E; subst. apply IH in H as (news & F2 & ->).
    exists (a0 :: news). split; [constructor; auto|]. simpl. rewrite app_assoc. reflexivity.
Qed.

Lemma fold_concat_total {A B} (F : A -> res (list B)) l : forall acc,
  (forall x, In x l -> exists new, F x = Ok new) ->
  exists r, foldM (fun vec p => do new <- F p; Ok (vec ++ new)) l acc = Ok r.
Proof.
  induction l as [|x l IH]; intros acc H; simpl; eauto.
  destruct (H x (or_introl eq_refl)) as (new & ->). cbn [bind]. apply IH. intros; apply H; right; auto.
Qed.

Lemma combinations2_nodup {A} (l : list A) : NoDup l -> NoDup (combinations2 l).
Proof.
  induction 1 as [|x l NX ND IH]; simpl; [constructor|].
  apply nodup_app; auto.
  - clear -ND. induction ND; simpl; constructor; auto. rewrite in_map_iff. intros (y & E & Y). inversion E; subst. contradiction.
  - intros p Hp Hq. apply in_map_iff in Hp as (y & <- & Hy). apply combinations2_mem in Hq as [Hq _]. contradiction.
Qed.

Lemma listed_blocks td st s bs trains ps : NoDup (dkeys st) -> In (s, bs) st ->
  (forall j, In j trains -> exists tt, runs td j tt /\ passes tt s) ->
  mapM (fun j => do tj <- train_time_table td j; do b <- blocks_list_4station tj s st; Ok (j, b)) trains = Ok ps ->
  forall j, In j trains -> dlookup j ps = Ok (track_of td bs j).
Proof.
  intros ND HS H M j Hj.
  assert (X : ps = map (fun j => (j, track_of td bs j)) trains).
  { apply mapM_ok in M. clear Hj j. induction M as [|x p l q HP M IH]; simpl; auto.
    f_equal; [|apply IH; intros; apply H; right; auto].
    destruct (H x (or_introl eq_refl)) as (tt & R & P). pose proof R as T. apply time_table_ok in T.
    rewrite T in HP. cbn [bind] in HP. rewrite (track_read td st s bs x tt ND HS R P) in HP. inversion HP. reflexivity. }
  apply dlookup_ok. rewrite X. clear -Hj. induction trains as [|x l IH]; [destruct Hj|]. simpl.
  destruct (eq_dec j x) as [->|N]; [reflexivity|]. apply IH. destruct Hj as [->|Hj]; [contradiction|auto].
Qed.

Lemma listed_total td st s bs trains : NoDup (dkeys st) -> In (s, bs) st ->
  (forall j, In j trains -> exists tt, runs td j tt /\ passes tt s) ->
  exists ps, mapM (fun j => do tj <- train_time_table td j; do b <- blocks_list_4station tj s st; Ok (j, b)) trains = Ok ps.
Proof.
  intros ND HS. induction trains as [|x l IH]; intros H; simpl; eauto.
  destruct (H x (or_introl eq_refl)) as (tt & R & P). pose proof R as T. apply time_table_ok in T.
  rewrite T. cbn [bind]. rewrite (track_read td st s bs x tt ND HS R P). cbn [bind].
  destruct IH as (ps & ->); [intros; apply H; right; auto|]. simpl. eauto.
Qed.

(** One pair, as in the loop *)
Definition pair_entries (td : train_dict) (net : list netrow) (s : string) (blocks : dict Z (list string)) (p : Z * Z)
  : res (list (dict Z string)) :=
  do tj <- train_time_table td (fst p);
  do tj' <- train_time_table td (snd p);
  do b <- dlookup (fst p) blocks;
  do b' <- dlookup (snd p) blocks;
  let sts := train_important_stations tj in
  let sts' := train_important_stations tj' in
  do in_j <- z_in net s sts b (path_of tj);
  do out_j <- z_out net s sts b (path_of tj);
  do in_j' <- z_in net s sts' b' (path_of tj');
  do out_j' <- z_out net s sts' b' (path_of tj');
  if negb (lmem s non_repeating_singles) then
    make_jswitch_dict tj tj' s (fst p) (snd p) in_j in_j' out_j out_j'
  else Ok [].

Definition station_entries (td : train_dict) (st : station_blocks) (net : list netrow) (s : string) :=
  do trains <- dlookup s (get_trains_at_station td st false);
  do blocks <-
    mapM (fun j =>
      do tj <- train_time_table td j;
      do b <- blocks_list_4station tj s st;
      Ok (j, b)) trains;
  foldM (fun vec p => do new <- pair_entries td net s blocks p; Ok (vec ++ new)) (combinations2 trains) [].

Lemma jswitch_entries td st net imp :
  jswitch td st net imp =
  foldM (fun d s => if (fun _ => true) s then do v <- station_entries td st net s; Ok (dset s v d) else Ok d)
    (imp_stations_list st imp) [].
Proof.
  unfold jswitch. cbv zeta. apply foldM_ext. intros d s _. unfold station_entries. cbv beta iota.
  destruct (dlookup s (get_trains_at_station td st false)) as [trains|]; [|reflexivity]. cbn [bind].
  destruct (mapM _ trains) as [blocks|]; [|reflexivity]. cbn [bind].
  match goal with |- bind ?a _ = bind ?b _ => assert (X : a = b) end; [|rewrite X; reflexivity].
  apply foldM_ext. intros vec p _. unfold pair_entries. cbv zeta.
  destruct (train_time_table td (fst p)); [|reflexivity]. cbn [bind].
  destruct (train_time_table td (snd p)); [|reflexivity]. cbn [bind].
  destruct (dlookup (fst p) blocks); [|reflexivity]. cbn [bind].
  destruct (dlookup (snd p) blocks); [|reflexivity]. cbn [bind].
  destruct (z_in _ _ _ a1 _); [|reflexivity]. cbn [bind].
  destruct (z_out _ _ _ a1 _); [|reflexivity]. cbn [bind].
  destruct (z_in _ _ _ a2 _); [|reflexivity]. cbn [bind].
  destruct (z_out _ _ _ a2 _); [|reflexivity]. cbn [bind].
  destruct (negb (lmem s non_repeating_singles)); [reflexivity|]. cbn [bind]. rewrite app_nil_r. reflexivity.
Qed.

Lemma filter_split {A} (p : A -> bool) l : forall u x w, filter p l = u ++ x :: w ->
  exists u1 w1, l = u1 ++ x :: w1 /\ filter p u1 = u /\ filter p w1 = w.
Proof.
  induction l as [|y l IH]; intros u x w E; simpl in E; [destruct u; discriminate|].
  destruct (p y) eqn:P.
  - destruct u as [|z u]; simpl in E; inversion E; subst.
    + exists [], l. auto.
    + destruct (IH _ _ _ H1) as (u1 & w1 & -> & E1 & E2). exists (z :: u1), w1. simpl. rewrite P, E1. auto.
  - destruct (IH _ _ _ E) as (u1 & w1 & -> & E1 & E2). exists (y :: u1), w1. simpl. rewrite P. auto.
Qed.

Section Pairs.
Variables (td : train_dict) (st : station_blocks) (net : list netrow) (s : string) (bs : list string).
Hypothesis ND : NoDup (dkeys td).
Hypothesis SA : stations_apart st.
Hypothesis AN : all_annotated st td.
Hypothesis VO : all_visit_once td.
Hypothesis OR : one_row_each net.
Hypothesis HS : In (s, bs) st.

Lemma routes_ok t tt : runs td t tt -> passes tt s ->
  (forall l, z_in net s (train_important_stations tt) (track_of td bs t) (path_of tt) = Ok l ->
     forall z, In z l <-> enters_over net tt s z) /\
  (forall l, z_out net s (train_important_stations tt) (track_of td bs t) (path_of tt) = Ok l ->
     forall z, In z l <-> exits_over net tt s z).
Proof.
  intros R P. pose proof R as (i & D). apply dget_in in D. assert (A := AN _ _ _ D). clear i D.
  destruct (station_row td st s bs t tt SA HS A (VO t tt R) P R) as (pre & r & post & rest & E & Er & T & N1 & N2).
  rewrite T. assert (V := VO t tt R). subst tt. split; intros l.
  - apply z_in_ok; auto.
  - apply z_out_ok; auto.
Qed.

Lemma conflict_passes tt a tt' b : switch_conflict net s tt a tt' b -> passes tt s /\ passes tt' s.
Proof.
  assert (G : forall tt a z, goes_over net tt s a z -> passes tt s).
  { intros t c z [[_ (p & r1 & r & q & n & -> & E & _)]|[_ (p & r & r2 & q & n & -> & E & _)]].
    - exists r. split; auto. apply in_app_iff. right. right. left. reflexivity.
    - exists r. split; auto. apply in_app_iff. right. left. reflexivity. }
  intros (_ & _ & z & X & Y). split; eapply G; eauto.
Qed.

Lemma entries_ok vec : station_entries td st net s = Ok vec ->
  NoDup vec /\
  forall e, In e vec <-> exists j j' tt tt' a b, before td j j' /\ runs td j tt /\ runs td j' tt' /\
    e = [(j, a); (j', b)] /\ switch_conflict net s tt a tt' b.
Proof.
  intros H. unfold station_entries in H. inv_bind H. inv_bind H. unfold dlookup in E.
  destruct (dget s (get_trains_at_station td st false)) as [l|] eqn:D; [|discriminate]. inversion E; subst a. clear E.
  destruct (trains_at_in td st false s l ND SA AN D) as (_ & (keep & KL) & HT).
  assert (HP : forall j, In j l -> exists tt, runs td j tt /\ passes tt s).
  { intros j Hj. apply HT in Hj as (tt & A & B & _). eauto. }
  assert (LK := listed_blocks td st s bs l a0 (proj1 SA) HS HP E0). clear E0.
  assert (NL : NoDup l) by (rewrite KL; apply NoDup_filter; exact ND).
  apply fold_concat in H as (news & F2 & ->). simpl.
  assert (PE : forall p new, In p (combinations2 l) -> pair_entries td net s a0 p = Ok new ->
    NoDup new /\ forall e, In e new <-> exists tt tt' a b, runs td (fst p) tt /\ runs td (snd p) tt' /\
      e = [(fst p, a); (snd p, b)] /\ switch_conflict net s tt a tt' b).
  { intros [j j'] new Hp E. unfold pair_entries in E. cbn [fst snd] in E |- *.
    apply combinations2_mem in Hp as [Hj Hj'].
    destruct (HP j Hj) as (tt & R & P). destruct (HP j' Hj') as (tt' & R' & P').
    pose proof R as T. apply time_table_ok in T. rewrite T in E. pose proof R' as T'. apply time_table_ok in T'. rewrite T' in E.
    cbn [bind] in E. rewrite (LK j Hj), (LK j' Hj') in E. cbn [bind] in E. cbv zeta in E.
    inv_bind E. inv_bind E. inv_bind E. inv_bind E.
    destruct (routes_ok j tt R P) as [RI RO]. destruct (routes_ok j' tt' R' P') as [RI' RO'].
    assert (UN : forall e, (exists a b, e = [(j, a); (j', b)] /\ switch_conflict net s tt a tt' b) <->
      exists t t' a b, runs td j t /\ runs td j' t' /\ e = [(j, a); (j', b)] /\ switch_conflict net s t a t' b).
    { intros e. split; [intros (x & y & X & Y); exists tt, tt', x, y; auto|].
      intros (t & t' & x & y & X & X' & Y & Z). rewrite (runs_fun _ _ _ _ R X), (runs_fun _ _ _ _ R' X'). exists x, y. auto. }
    destruct (negb (lmem s non_repeating_singles)) eqn:NS.
    - apply negb_true_iff in NS. apply lmem_false in NS.
      destruct (pair_ok net s tt tt' j j' a a1 a2 a3 (VO j tt R) (VO j' tt' R') NS
        (RI _ E0) (RO _ E1) (RI' _ E2) (RO' _ E3)) as (new' & EN & NN & IN).
      rewrite EN in E. inversion E; subst. split; auto. intros e. rewrite IN. apply UN.
    - inversion E; subst. split; [constructor|]. intros e. rewrite <- UN. simpl. split; [tauto|].
      intros (x & y & _ & (C1 & C2 & _) & _). apply negb_false_iff in NS. apply lmem_true in NS.
      simpl in NS. intuition. }
  assert (BF : forall j j', (exists tt tt', runs td j tt /\ runs td j' tt' /\ passes tt s /\ passes tt' s) ->
      (In (j, j') (combinations2 l) <-> before td j j')).
  { intros j j' (tt & tt' & R & R' & P & P'). rewrite combinations2_in.
    assert (K : keep j = true /\ keep j' = true).
    { assert (X : In j l) by (apply HT; exists tt; repeat split; auto; discriminate).
      assert (X' : In j' l) by (apply HT; exists tt'; repeat split; auto; discriminate).
      rewrite KL in X, X'. apply filter_In in X, X'. tauto. }
    destruct K as [K K']. rewrite KL. unfold before. clear -K K' ND. generalize (dkeys td) ND. clear ND.
    intros ks ND. split.
    - intros (u & v & w & E). apply filter_split in E as (u1 & r1 & -> & _ & E1).
      apply filter_split in E1 as (v1 & w1 & -> & _ & _).
      exists u1, v1, w1. reflexivity.
    - intros (u & v & w & ->). rewrite filter_app. simpl. rewrite K, filter_app. simpl. rewrite K'. eauto. }
  split.
  - assert (NC := combinations2_nodup l NL). revert news F2 NC PE. clear BF.
    generalize (combinations2 l). intros ps news F2. induction F2 as [|p new ps news HF F2 IH]; intros NC PE; simpl; [constructor|].
    inversion NC; subst. apply nodup_app.
    + apply (PE p new); auto. left. reflexivity.
    + apply IH; auto. intros q n Hq. apply PE. right. exact Hq.
    + intros e He Hc. apply in_concat in Hc as (n2 & Hn & Hc).
      assert (X : exists q, In q ps /\ pair_entries td net s a0 q = Ok n2).
      { clear -F2 Hn. induction F2; [destruct Hn|]. destruct Hn as [->|Hn]; [eauto with datatypes|].
        destruct (IHF2 Hn) as (q & A & B). exists q. split; auto. right. exact A. }
      destruct X as (q & Hq & Eq). apply (PE p new (or_introl eq_refl) HF) in He as (? & ? & ? & ? & _ & _ & Ee & _).
      destruct (proj1 (proj2 (PE q n2 (or_intror Hq) Eq) e) Hc) as (t3 & t4 & y3 & y4 & _ & _ & Ee' & _).
      rewrite Ee in Ee'. assert (X : p = q).
      { clear -Ee'. destruct p as [p1 p2], q as [q1 q2]. cbn [fst snd] in Ee'. congruence. }
      rewrite X in *. contradiction.
  - intros e. rewrite in_concat. split.
    + intros (new & Hn & He).
      assert (X : exists q, In q (combinations2 l) /\ pair_entries td net s a0 q = Ok new).
      { clear -F2 Hn. induction F2; [destruct Hn|]. destruct Hn as [->|Hn]; [eauto with datatypes|].
        destruct (IHF2 Hn) as (q & A & B). exists q. split; auto. right. exact A. }
      destruct X as ([j j'] & Hq & Eq). destruct (proj1 (proj2 (PE (j, j') new Hq Eq) e) He) as (tt & tt' & x & y & R & R' & Ee & C).
      cbn [fst snd] in *. exists j, j', tt, tt', x, y. split; auto. apply BF; auto.
      exists tt, tt'. split; auto. split; auto. eapply conflict_passes; eauto.
    + intros (j & j' & tt & tt' & x & y & B & R & R' & Ee & C).
      assert (I : In (j, j') (combinations2 l)).
      { apply BF; auto. exists tt, tt'. split; auto. split; auto. eapply conflict_passes; eauto. }
      assert (X : exists new, In new news /\ pair_entries td net s a0 (j, j') = Ok new).
      { clear -F2 I. induction F2; [destruct I|]. destruct I as [->|I]; [eauto with datatypes|].
        destruct (IHF2 I) as (q & A & B). exists q. split; auto. right. exact A. }
      destruct X as (new & Hn & En). exists new. split; auto. apply (PE _ _ I En). exists tt, tt', x, y. auto.
Qed.
End Pairs.

(** Per station asked for, one entry [{j: a, j': b}] for two trains (in the order of the train
    dictionary) and every choice of "in" or "out" for each whose routes share a switch there; no
    other entry, and none twice.  Entering its first station and going on from its last one (see
    enters_over, exits_over) are not counted: C42_beyond_refuted. *)
Theorem C42_switches_partial : forall td st net imp d,
  NoDup (dkeys td) -> stations_apart st -> all_annotated st td -> all_visit_once td -> one_row_each net ->
  jswitch td st net imp = Ok d ->
  (forall s, In s (dkeys d) <-> asked st imp s) /\
  forall s vec, dget s d = Some vec ->
    NoDup vec /\
    forall e, In e vec <-> exists j j' tt tt' a b,
      before td j j' /\ runs td j tt /\ runs td j' tt' /\
      e = [(j, a); (j', b)] /\ switch_conflict net s tt a tt' b.
Proof.
  intros td st net imp d ND SA AN VO OR H. rewrite jswitch_entries in H.
  assert (FT := fold_table (fun _ => true) (station_entries td st net) _ _ _ H). split.
  - intros s. rewrite asked_in. split.
    + intros X. apply in_map_iff in X as ([s' v] & E & X). simpl in E. subst s'.
      destruct (dget s d) as [w|] eqn:D; [|apply dget_none in D; exfalso; apply D; apply in_map_iff; exists (s, v); auto].
      apply FT in D as [(A & _)|[_ D]]; [exact A|discriminate].
    + intros A. assert (X : exists v, station_entries td st net s = Ok v).
      { apply in_split in A as (u & w & E). rewrite E in H. clear FT E. revert H. generalize (@nil (string * list (dict Z string))).
        induction u as [|x u IH]; intros d0 H; simpl in H.
        - inv_bind H. inv_bind E. eauto.
        - inv_bind H. eauto. }
      destruct X as (v & X). assert (D : dget s d = Some v) by (apply FT; left; auto).
      apply dget_in in D. apply in_map_iff. exists (s, v). auto.
  - intros s vec D. apply FT in D as [(A & _ & E)|[_ D]]; [|discriminate].
    assert (X : exists bs, In (s, bs) st).
    { unfold station_entries in E. inv_bind E. apply dlookup_ok in E0.
      destruct (trains_at_in td st false s a ND SA AN E0) as (X & _). exact X. }
    destruct X as (bs & HS). eapply entries_ok; eauto.
Qed.
Print Assumptions C42_switches_partial.

(** ** When every cell that is read names switches, jswitch does not fail *)

Lemma read_total c : readable c -> exists l, read_switch c = Ok l.
Proof.
  destruct c as [n|m|n|w f|]; simpl; try tauto; eauto. intros [(z & E) N].
  destruct f as [|c f]; [rewrite E; simpl; eauto|].
  destruct c as [[] [] [] [] [] [] [] []]; try (rewrite E; simpl; eauto; fail).
  destruct f as [|d f]; [rewrite E; simpl; eauto|]. exfalso. apply N. exists d, f. reflexivity.
Qed.

Lemma between_total net a b : a <> b -> (forall n, In n net -> row_for n a b -> readable (n_switch n)) ->
  exists l, switches_between net a b = Ok l.
Proof.
  intros AB R. unfold switches_between. cbn [block_indices_to_interprete_switches].
  assert (P : forall k, In k (common_elements
      (positions (fun n => eqb (n_prev n) b) net 0 ++ positions (fun n => eqb (n_next n) b) net 0)
      (positions (fun n => eqb (n_prev n) a) net 0 ++ positions (fun n => eqb (n_next n) a) net 0)) ->
      exists n, nth_error net k = Some n /\ row_for n a b).
  { intros k. unfold common_elements. rewrite filter_In, lmem_true, !in_app_iff, !positions_in.
    intros [X Y].
    assert (X' : exists n, nth_error net k = Some n /\ (n_prev n = b \/ n_next n = b)).
    { destruct X as [(m & n & -> & B & C)|(m & n & -> & B & C)]; apply eqb_eq in C; exists n; auto. }
    assert (Y' : exists n, nth_error net k = Some n /\ (n_prev n = a \/ n_next n = a)).
    { destruct Y as [(m & n & -> & B & C)|(m & n & -> & B & C)]; apply eqb_eq in C; exists n; auto. }
    destruct X' as (n & B & C), Y' as (n' & B' & C'). rewrite B in B'. injection B' as <-. exists n. split; [exact B|].
    unfold row_for. intuition congruence. }
  unfold switches_at. revert P. generalize (@nil Z).
  match goal with |- context [common_elements ?x ?y] => generalize (common_elements x y) end.
  induction l as [|k l IH]; intros acc P; simpl; eauto.
  destruct (P k (or_introl eq_refl)) as (n & N & RF). unfold lnth. rewrite N. cbn [bind].
  destruct (read_total (n_switch n)) as (x & ->); [apply R; [eapply nth_error_In; eauto|exact RF]|].
  cbn [bind]. apply IH. intros j Hj. apply P. right. exact Hj.
Qed.

Lemma z_in_total net s pre r post rest :
  (forall u r1 n, pre = u ++ [r1] -> (exists r0, In r0 pre /\ r_station r0 <> None) -> In n net ->
     row_for n (r_block r1) (r_block r) -> readable (n_switch n)) ->
  visits_once (pre ++ r :: post) ->
  r_station r = Some s -> ~ In (r_block r) (path_of pre) -> ~ In (r_block r) (path_of post) ->
  exists l, z_in net s (train_important_stations (pre ++ r :: post)) (r_block r :: rest) (path_of (pre ++ r :: post)) = Ok l.
Proof.
  intros RD V Er N1 N2. unfold z_in. cbn [lnth nth_error bind].
  replace (path_of (pre ++ r :: post)) with (path_of pre ++ r_block r :: path_of post)
    by (unfold path_of; rewrite map_app; reflexivity).
  rewrite (scan_ok _ (r_block r) (path_of pre) (path_of post) 0); auto;
    [|intros acc n b NE; simpl; rewrite (proj2 (eqb_false _ _) NE); destruct (snd acc); reflexivity].
  cbn [fst snd]. rewrite eqb_refl. change (0 + List.length (path_of pre))%nat with (List.length (path_of pre)).
  pose proof V as ND. apply visits_once_nodup in ND.
  rewrite stations_app in ND |- *. change (r :: post) with ([r] ++ post) in ND |- *. rewrite stations_app in ND |- *.
  simpl train_important_stations in ND |- *. rewrite Er in ND |- *. simpl app in ND |- *.
  assert (NS : ~ In s (train_important_stations pre)).
  { apply NoDup_remove_2 in ND. intros X. apply ND. apply in_app_iff. auto. }
  rewrite (lindex_mid (train_important_stations pre) (train_important_stations post) s NS). cbn [bind].
  destruct (Nat.eqb (List.length (train_important_stations pre)) 0) eqn:Z0; [cbn; eauto|]. apply Nat.eqb_neq in Z0.
  assert (HS : exists r0, In r0 pre /\ r_station r0 <> None).
  { destruct (train_important_stations pre) as [|s0 l0] eqn:P0; [simpl in Z0; lia|].
    assert (I0 : In s0 (train_important_stations pre)) by (rewrite P0; left; reflexivity).
    apply stations_in in I0 as (r0 & I0 & E0). exists r0. split; [exact I0|congruence]. }
  destruct (exists_last (l := pre)) as (u & r1 & Eu); [intros ->; destruct HS as (? & [] & _)|].
  assert (LP : path_of pre = path_of u ++ [r_block r1]) by (rewrite Eu; unfold path_of; rewrite map_app; reflexivity).
  assert (LN : List.length (path_of pre) = S (List.length (path_of u))) by (rewrite LP, app_length; simpl; lia).
  replace (List.length (path_of pre) =? 0)%nat with false by (rewrite LN; reflexivity).
  assert (PB : lnth (path_of pre ++ r_block r :: path_of post) (List.length (path_of pre) - 1) = Ok (r_block r1)).
  { unfold lnth. rewrite LN, LP. simpl. rewrite Nat.sub_0_r, <- app_assoc, nth_error_app2, Nat.sub_diag by lia. reflexivity. }
  rewrite PB. cbn [bind].
  destruct (between_total net (r_block r1) (r_block r)) as (l & ->); [|intros n In_ RF; exact (RD u r1 n Eu HS In_ RF)|cbn; eauto].
  intros X. apply N1. rewrite LP, <- X. apply in_app_iff. right. left. reflexivity.
Qed.

Lemma z_out_total net s pre r post rest :
  (forall r2 v n, post = r2 :: v -> (exists r0, In r0 post /\ r_station r0 <> None) -> In n net ->
     row_for n (r_block r) (r_block r2) -> readable (n_switch n)) ->
  visits_once (pre ++ r :: post) ->
  r_station r = Some s -> ~ In (r_block r) (path_of pre) -> ~ In (r_block r) (path_of post) ->
  exists l, z_out net s (train_important_stations (pre ++ r :: post)) (r_block r :: rest) (path_of (pre ++ r :: post)) = Ok l.
Proof.
  intros RD V Er N1 N2. unfold z_out. cbn [lnth nth_error bind].
  replace (path_of (pre ++ r :: post)) with (path_of pre ++ r_block r :: path_of post)
    by (unfold path_of; rewrite map_app; reflexivity).
  rewrite (scan_ok _ (r_block r) (path_of pre) (path_of post) 0); auto;
    [|intros acc n b NE; simpl; rewrite (proj2 (eqb_false _ _) NE); destruct (snd acc); reflexivity].
  cbn [fst snd]. rewrite eqb_refl. change (0 + List.length (path_of pre))%nat with (List.length (path_of pre)).
  pose proof V as ND. apply visits_once_nodup in ND.
  rewrite stations_app in ND |- *. change (r :: post) with ([r] ++ post) in ND |- *. rewrite stations_app in ND |- *.
  simpl train_important_stations in ND |- *. rewrite Er in ND |- *. simpl app in ND |- *.
  assert (NS : ~ In s (train_important_stations pre)).
  { apply NoDup_remove_2 in ND. intros X. apply ND. apply in_app_iff. auto. }
  rewrite (lindex_mid (train_important_stations pre) (train_important_stations post) s NS). cbn [bind].
  rewrite app_length. simpl List.length.
  destruct (Nat.eqb (List.length (train_important_stations pre))
             (List.length (train_important_stations pre) + S (List.length (train_important_stations post)) - 1)) eqn:Z0;
    [cbn; eauto|].
  apply Nat.eqb_neq in Z0. destruct post as [|x post]; [simpl in Z0; lia|].
  assert (PB : lnth (path_of pre ++ r_block r :: path_of (x :: post)) (List.length (path_of pre) + 1) = Ok (r_block x)).
  { unfold lnth. rewrite nth_error_app2 by lia.
    replace (List.length (path_of pre) + 1 - List.length (path_of pre))%nat with 1%nat by lia. reflexivity. }
  rewrite PB. cbn [bind].
  destruct (between_total net (r_block r) (r_block x)) as (l & ->); [|intros n In_ RF; apply (RD x post n eq_refl); [|exact In_|exact RF]|cbn; eauto].
  - intros X. apply N2. rewrite X. left. reflexivity.
  - destruct (train_important_stations (x :: post)) as [|s0 l0] eqn:P0; [simpl in Z0; lia|].
    assert (I0 : In s0 (train_important_stations (x :: post))) by (rewrite P0; left; reflexivity).
    apply stations_in in I0 as (r0 & I0 & E0). exists r0. split; [exact I0|congruence].
Qed.

Theorem C42_runs : forall td st net imp,
  NoDup (dkeys td) -> stations_apart st -> all_annotated st td -> all_visit_once td ->
  (forall n, In n net -> looked_at td n -> readable (n_switch n)) ->
  (forall s, asked st imp s -> In s (dkeys st)) ->
  exists d, jswitch td st net imp = Ok d.
Proof.
  intros td st net imp ND SA AN VO RD HA. rewrite jswitch_entries.
  apply (fold_table_ok (fun _ => true) (station_entries td st net)).
  intros s Hs _. apply asked_in in Hs. apply HA in Hs. apply in_map_iff in Hs as ([s' bs] & E & HS). simpl in E. subst s'.
  unfold station_entries, dlookup.
  destruct (dget s (get_trains_at_station td st false)) as [l|] eqn:D.
  2: { exfalso. apply dget_none in D. apply D.
       destruct (C52_trains_at_station td st false ND SA AN) as [-> _]. apply in_map_iff. exists (s, bs). auto. }
  cbn [bind]. destruct (trains_at_in td st false s l ND SA AN D) as (_ & _ & HT).
  assert (HP : forall j, In j l -> exists tt, runs td j tt /\ passes tt s).
  { intros j Hj. apply HT in Hj as (tt & A & B & _). eauto. }
  destruct (listed_total td st s bs l (proj1 SA) HS HP) as (ps & E). rewrite E. cbn [bind].
  assert (LK := listed_blocks td st s bs l ps (proj1 SA) HS HP E).
  apply fold_concat_total. intros [j j'] Hp. apply combinations2_mem in Hp as [Hj Hj'].
  destruct (HP j Hj) as (tt & R & P). destruct (HP j' Hj') as (tt' & R' & P').
  unfold pair_entries. cbn [fst snd].
  assert (ZT : forall t u, runs td t u -> passes u s ->
    (exists l, z_in net s (train_important_stations u) (track_of td bs t) (path_of u) = Ok l) /\
    (exists l, z_out net s (train_important_stations u) (track_of td bs t) (path_of u) = Ok l)).
  { intros t u Ru Pu. pose proof Ru as (i & Du). apply dget_in in Du. assert (A := AN _ _ _ Du). clear i Du.
    assert (V := VO t u Ru).
    destruct (station_row td st s bs t u SA HS A V Pu Ru) as (pre & r & post & rest & Eu & Er & T & N1 & N2).
    rewrite T. subst u. split; [apply z_in_total|apply z_out_total]; auto.
    - intros w r1 n Ew HS0 In_ RF. apply RD; [exact In_|]. exists t, (pre ++ r :: post), w, r1, r, post. split; [exact Ru|].
      split; [rewrite Ew, <- app_assoc; reflexivity|]. split; [exact RF|]. left. split; [congruence|]. rewrite <- Ew. exact HS0.
    - intros r2 w n Ew HS0 In_ RF. apply RD; [exact In_|]. exists t, (pre ++ r :: post), pre, r, r2, w. split; [exact Ru|].
      split; [rewrite Ew; reflexivity|]. split; [exact RF|]. right. split; [congruence|]. rewrite <- Ew. exact HS0. }
  pose proof R as T. apply time_table_ok in T. rewrite T. pose proof R' as T'. apply time_table_ok in T'. rewrite T'.
  cbn [bind]. rewrite (LK j Hj), (LK j' Hj'). cbn [bind]. cbv zeta.
  destruct (ZT j tt R P) as [(i & ->) (o & ->)]. destruct (ZT j' tt' R' P') as [(i' & ->) (o' & ->)]. cbn [bind].
  destruct (negb (lmem s non_repeating_singles)); [|eauto].
  unfold make_jswitch_dict.
  destruct (next_total tt non_repeating_0) as (n0 & ->). destruct (next_total tt' non_repeating_0) as (n0' & ->).
  destruct (next_total tt s) as (n1 & ->). destruct (next_total tt' s) as (n1' & ->). cbn [bind]. eauto.
Qed.
Print Assumptions C42_runs.

(** Trains 11 and 12 use switch 3 between a block and station B in opposite directions, 11 and
    13 leave B over switches 7 and 8 and over 8. *)
Definition sw_net : list netrow :=
  [MkNet "a1" "x" (SwOne 1) None None None None; MkNet "x" "b1" (SwMany [3; 4]%Z) None None None None;
   MkNet "y" "b1" (SwFloat 7 "8") None None None None; MkNet "b2" "y" (SwOne 8) None None None None;
   MkNet "y" "c1" (SwMany []) None None None None].

Lemma one_row_check net :
  forallb (fun n => negb (eqb (n_prev n) (n_next n))) net = true ->
  forallb (fun p => negb (eqb (n_prev (snd p)) (n_prev (fst p)) && eqb (n_next (snd p)) (n_next (fst p))) &&
    negb (eqb (n_prev (snd p)) (n_next (fst p)) && eqb (n_next (snd p)) (n_prev (fst p)))) (combinations2 net) = true ->
  one_row_each net.
Proof.
  intros A B. rewrite forallb_forall in A, B. split.
  - intros n H. apply A in H. apply negb_true_iff in H. apply eqb_false in H. exact H.
  - intros u n v n' w E. assert (I : In (n, n') (combinations2 net)) by (apply combinations2_in; eauto).
    apply B in I. cbn [fst snd] in I. apply andb_true_iff in I as [I J]. apply negb_true_iff in I, J.
    split; intros [X Y]; rewrite X, Y, !eqb_refl in *; discriminate.
Qed.

Example C42_case :
  NoDup (dkeys on_td) /\ stations_apart abc_st /\ all_annotated abc_st on_td /\ all_visit_once on_td /\
  one_row_each sw_net /\ (forall n, In n sw_net -> readable (n_switch n)) /\
  jswitch on_td abc_st sw_net None =
    Ok [("A", []);
        ("B", [[(11, "out"); (12, "in")]; [(11, "out"); (13, "out")]; [(12, "in"); (13, "out")]]%Z);
        ("C", [])].
Proof.
  split; [repeat constructor; simpl; intuition discriminate|]. split; [apply abc_apart|].
  split; [apply on_annotated|]. split; [apply on_once|]. split; [apply one_row_check; vm_compute; reflexivity|].
  split; [|vm_compute; reflexivity].
  intros n H. simpl in H. repeat (destruct H as [<-|H]; [cbn; auto|]); [|destruct H].
  split; [eexists; vm_compute; reflexivity|]. intros (d & r & E). discriminate.
Qed.

(** Train 11 comes to B over switch 3, over which train 12 goes on from B, its last station. *)
Theorem C42_beyond_refuted : exists td st net,
  NoDup (dkeys td) /\ stations_apart st /\ all_annotated st td /\ all_visit_once td /\ one_row_each net /\
  (forall n, In n net -> readable (n_switch n)) /\
  exists s j j' tt tt' z, j <> j' /\ runs td j tt /\ runs td j' tt' /\
    enters_over net tt s z /\ on_over net tt' s z /\
    exists d vec, jswitch td st net None = Ok d /\ dget s d = Some vec /\
      ~ In [(j, "in"); (j', "out")] vec /\ ~ In [(j', "out"); (j, "in")] vec.
Proof.
  destruct C42_case as (A & B & C & D & E & F & G).
  exists on_td, abc_st, sw_net. do 6 (split; [assumption|]).
  exists "B", 11%Z, 12%Z. eexists. eexists. exists 3%Z.
  split; [discriminate|]. split; [eexists; reflexivity|]. split; [eexists; reflexivity|].
  split; [|split].
  - exists [at_ "a1" (Some "A")], (at_ "x" None), (at_ "b1" (Some "B")), [at_ "y" None; at_ "c1" (Some "C"); at_ "z" None],
      (MkNet "x" "b1" (SwMany [3; 4]%Z) None None None None).
    split; [reflexivity|]. split; [reflexivity|]. split; [exists (at_ "a1" (Some "A")); split; [left; reflexivity|discriminate]|].
    split; [right; left; reflexivity|]. split; [left; split; reflexivity|]. left. reflexivity.
  - exists [at_ "c1" (Some "C"); at_ "y" None], (at_ "b1" (Some "B")), (at_ "x" None), [],
      (MkNet "x" "b1" (SwMany [3; 4]%Z) None None None None).
    split; [reflexivity|]. split; [reflexivity|].
    split; [right; left; reflexivity|]. split; [right; split; reflexivity|]. left. reflexivity.
  - eexists. eexists. split; [exact G|]. split; [reflexivity|]. split; simpl; intuition discriminate.
Qed.
Print Assumptions C42_beyond_refuted.

(** ** C43: turnarounds *)

Lemma dappend_in {K V} `{EqDec K} (k : K) (v : V) d k' l : dget k' (dappend k v d) = Some l ->
  (k' = k /\ exists l0, l = l0 ++ [v] /\ (dget k d = Some l0 \/ (dget k d = None /\ l0 = []))) \/
  (k' <> k /\ dget k' d = Some l).
Proof.
  unfold dappend. destruct (dget k d) as [l0|] eqn:D; rewrite dget_dset; destruct (eq_dec k' k) as [->|N]; intros X.
  - inversion X. left. split; auto. exists l0. auto.
  - right. auto.
  - inversion X. left. split; auto. exists []. auto.
  - right. auto.
Qed.

Definition placed {K V} `{EqDec K} (pls : list (K * V)) : dict K (list V) :=
  fold_left (fun d sp => dappend (fst sp) (snd sp) d) pls [].

Lemma placed_snoc {K V} `{EqDec K} (pls : list (K * V)) s p : placed (pls ++ [(s, p)]) = dappend s p (placed pls).
Proof. unfold placed. rewrite fold_left_app. reflexivity. Qed.

Lemma placed_get {K V} `{EqDec K} (pls : list (K * V)) : forall s,
  match dget s (placed pls) with
  | Some l => l <> [] /\ l = map snd (filter (fun sp => eqb (fst sp) s) pls)
  | None => filter (fun sp => eqb (fst sp) s) pls = []
  end.
Proof.
  induction pls as [|[k v] pls IH] using rev_ind; intros s; [reflexivity|].
  rewrite placed_snoc, filter_app. simpl filter. cbn [fst].
  specialize (IH s). unfold dappend. destruct (dget k (placed pls)) as [l0|] eqn:D; rewrite dget_dset;
    destruct (eq_dec s k) as [->|N].
  - rewrite D in IH. destruct IH as [_ ->]. rewrite eqb_refl, map_app. split; [|reflexivity].
    destruct (map snd (filter (fun sp => eqb (fst sp) k) pls)); discriminate.
  - assert (X : eqb k s = false) by (apply eqb_false; congruence). rewrite X, app_nil_r. exact IH.
  - rewrite D in IH. rewrite IH, eqb_refl. simpl. split; [discriminate|reflexivity].
  - assert (X : eqb k s = false) by (apply eqb_false; congruence). rewrite X, app_nil_r. exact IH.
Qed.

Lemma pair9_in td x y : In (x, y) (get_trains_pair9 td) <->
  In x (dkeys td) /\ In y (dkeys td) /\ y = (x * 10 + 9)%Z.
Proof.
  unfold get_trains_pair9, get_J. rewrite in_flat_map. split.
  - intros (t & Ht & X). destruct (lmem (t * 10 + 9)%Z (dkeys td)) eqn:M; [|destruct X].
    destruct X as [X|[]]. inversion X; subst. apply lmem_true in M. auto.
  - intros (X & Y & ->). exists x. split; auto. apply lmem_true in Y. rewrite Y. left. reflexivity.
Qed.

Lemma pair9_nodup td : NoDup (dkeys td) -> NoDup (map fst (get_trains_pair9 td)).
Proof.
  unfold get_trains_pair9, get_J. generalize (dkeys td) at 1 3. intros ks ND.
  induction ND as [|k ks NK ND IH]; simpl; [constructor|].
  destruct (lmem (k * 10 + 9)%Z (dkeys td)); [|exact IH]. simpl. constructor; [|exact IH].
  rewrite in_map_iff. intros ([a b] & E & I). simpl in E. subst a. apply in_flat_map in I as (t & Ht & I).
  destruct (lmem (t * 10 + 9)%Z (dkeys td)); [|destruct I]. destruct I as [I|[]]. inversion I; subst. contradiction.
Qed.

Lemma in_keys_runs td t : In t (dkeys td) -> exists tt, runs td t tt.
Proof.
  intros H. destruct (dget t td) as [[i tt]|] eqn:D; [exists tt, i; exact D|]. apply dget_none in D. contradiction.
Qed.

Lemma starts_path tt b : starts_on tt b <-> lnth (path_of tt) 0 = Ok b.
Proof.
  unfold starts_on, lnth, path_of. destruct tt as [|r w]; simpl.
  - split; [intros (r & w & E & _)|]; discriminate.
  - split; [intros (r0 & w0 & E & E1); congruence|]. intros E. inversion E. eauto.
Qed.

Lemma ends_path tt b : ends_on tt b <-> last1 (path_of tt) = Ok b.
Proof.
  unfold ends_on, path_of. destruct tt as [|r w] using rev_ind.
  - simpl. split; [|discriminate]. intros (f & r & E & _). destruct f; discriminate.
  - rewrite map_app. unfold last1. simpl. rewrite rev_unit. split.
    + intros (f & r0 & E & E1). apply app_inj_tail in E as [_ ->]. congruence.
    + intros E. inversion E. eauto.
Qed.

Lemma station_found st b s : stations_apart st -> in_station st b s -> station_with b st = Ok s.
Proof.
  intros [ND U] H. unfold station_with.
  assert (A : forall kv, In kv (filter (fun kv => lmem b (snd kv)) st) -> fst kv = s).
  { intros [k bs] X. apply filter_In in X as [X Y]. apply lmem_true in Y. apply (U b); auto. exists bs. auto. }
  destruct H as (bs & H1 & H2).
  assert (I : In (s, bs) (filter (fun kv => lmem b (snd kv)) st)) by (apply filter_In; split; auto; apply lmem_true; auto).
  destruct (filter (fun kv => lmem b (snd kv)) st) as [|kv l]; [destruct I|]. rewrite (A kv (or_introl eq_refl)). reflexivity.
Qed.

(** If the two trains of every pair meet, on a block of a station, each pair is listed exactly
    once, at a station where its first train ends on the block on which its second one starts. *)
Theorem C43_placed_partial : forall td st,
  NoDup (dkeys td) -> stations_apart st ->
  (forall x, In x (dkeys td) -> In (x * 10 + 9)%Z (dkeys td) ->
     exists j j' b, same_stock x j j' /\ meets td j j' b) ->
  (forall x j j' b, same_stock x j j' -> meets td j j' b -> exists s, in_station st b s) ->
  exists d, get_jround td st = Ok d /\
    (forall s l, dget s d = Some l -> l <> [] /\ NoDup l) /\
    (forall s l j j', dget s d = Some l -> In (j, j') l ->
       turns td st s j j' /\ exists x, same_stock x j j') /\
    (forall x, In x (dkeys td) -> In (x * 10 + 9)%Z (dkeys td) ->
       exists s l j j', dget s d = Some l /\ In (j, j') l /\ same_stock x j j' /\
         forall s2 l2 k k', dget s2 d = Some l2 -> In (k, k') l2 -> same_stock x k k' ->
           s2 = s /\ k = j /\ k' = j').
Proof.
  intros td st ND SA HM HB.
  set (good := fun (pr : Z * Z) (sp : string * (Z * Z)) =>
      same_stock (fst pr) (fst (snd sp)) (snd (snd sp)) /\ turns td st (fst sp) (fst (snd sp)) (snd (snd sp))).
  assert (ST : exists pls, get_jround td st = Ok (placed pls) /\ Forall2 good (get_trains_pair9 td) pls).
  { unfold get_jround.
    assert (HP : forall p, In p (get_trains_pair9 td) -> In (fst p) (dkeys td) /\ snd p = (fst p * 10 + 9)%Z /\ In (snd p) (dkeys td)).
    { intros [x y] H. apply pair9_in in H. simpl. tauto. }
    revert HP. generalize (get_trains_pair9 td). intros ps HP.
    match goal with |- context [foldM ?f ps _] => set (step := f) end.
    assert (STEP : forall p blk d, In p ps -> exists blk' s q, step (blk, d) p = Ok (blk', dappend s q d) /\ good p (s, q)).
    { intros [x y] blk d Hp. destruct (HP _ Hp) as (Kx & Ey & Ky). cbn [fst snd] in *. subst y.
      destruct (in_keys_runs td x Kx) as (t0 & R0). destruct (in_keys_runs td _ Ky) as (t1 & R1).
      destruct (HM x Kx Ky) as (j & j' & b & SS & M).
      assert (X : exists f0 l0 f1 l1, lnth (path_of t0) 0 = Ok f0 /\ last1 (path_of t0) = Ok l0 /\
        lnth (path_of t1) 0 = Ok f1 /\ last1 (path_of t1) = Ok l1).
      { assert (FS : forall u : table, u <> [] -> (exists a, lnth (path_of u) 0 = Ok a) /\ (exists z, last1 (path_of u) = Ok z)).
        { intros u Nu. split.
          - destruct u; [congruence|]. cbn. eauto.
          - destruct u as [|r u] using rev_ind; [congruence|]. unfold path_of. rewrite map_app. unfold last1. simpl.
            rewrite rev_unit. eauto. }
        assert (NN : t0 <> [] /\ t1 <> []).
        { destruct M as (tt & tt' & Rj & Rj' & (f & r & -> & _) & (r' & w & -> & _)).
          destruct SS as [[-> ->]|[-> ->]].
          - rewrite (runs_fun _ _ _ _ R0 Rj), (runs_fun _ _ _ _ R1 Rj'). split; [destruct f|]; discriminate.
          - rewrite (runs_fun _ _ _ _ R0 Rj'), (runs_fun _ _ _ _ R1 Rj). split; [|destruct f]; discriminate. }
        destruct NN as [N0 N1]. destruct (FS t0 N0) as [(f0 & F0) (l0 & L0)]. destruct (FS t1 N1) as [(f1 & F1) (l1 & L1)].
        exists f0, l0, f1, l1. auto. }
      destruct X as (f0 & l0 & f1 & l1 & F0 & L0 & F1 & L1).
      unfold step. cbn [fst snd].
      pose proof R0 as T0. apply time_table_ok in T0. pose proof R1 as T1. apply time_table_ok in T1.
      rewrite T0, T1. cbn [bind]. rewrite F0, L1, F1, L0. cbn [bind].
      apply starts_path in F0, F1. apply ends_path in L0, L1.
      destruct (eqb f0 l1) eqn:E1; [|destruct (eqb f1 l0) eqn:E2].
      - apply eqb_eq in E1. subst l1.
        assert (MT : meets td (x * 10 + 9)%Z x f0) by (exists t1, t0; auto).
        assert (S1 : same_stock x (x * 10 + 9)%Z x) by (right; auto).
        destruct (HB _ _ _ _ S1 MT) as (s & IS). rewrite (station_found st f0 s SA IS). cbn [bind].
        eexists. exists s, ((x * 10 + 9)%Z, x). split; [reflexivity|]. split; auto. exists f0. auto.
      - apply eqb_eq in E2. subst l0.
        assert (MT : meets td x (x * 10 + 9)%Z f1) by (exists t0, t1; auto).
        assert (S1 : same_stock x x (x * 10 + 9)%Z) by (left; auto).
        destruct (HB _ _ _ _ S1 MT) as (s & IS). rewrite (station_found st f1 s SA IS). cbn [bind].
        eexists. exists s, (x, (x * 10 + 9)%Z). split; [reflexivity|]. split; auto. exists f1. auto.
      - exfalso. apply eqb_neq in E1, E2. apply starts_path in F0, F1. apply ends_path in L0, L1.
        destruct M as (tt & tt' & Rj & Rj' & EN & SN). apply ends_path in EN. apply starts_path in SN.
        destruct SS as [[-> ->]|[-> ->]].
        + rewrite <- (runs_fun _ _ _ _ R0 Rj) in EN. rewrite <- (runs_fun _ _ _ _ R1 Rj') in SN. congruence.
        + rewrite <- (runs_fun _ _ _ _ R1 Rj) in EN. rewrite <- (runs_fun _ _ _ _ R0 Rj') in SN. congruence. }
    assert (GEN : forall qs pls0 blk, (forall q, In q qs -> In q ps) ->
      exists blk' pls, foldM step qs (blk, placed pls0) = Ok (blk', placed (pls0 ++ pls)) /\ Forall2 good qs pls).
    { induction qs as [|q qs IH]; intros pls0 blk HI.
      - exists blk, []. rewrite app_nil_r. split; [reflexivity|constructor].
      - destruct (STEP q blk (placed pls0) (HI q (or_introl eq_refl))) as (blk' & s & pq & E & G).
        cbn [foldM]. rewrite E. cbn [bind]. rewrite <- placed_snoc.
        destruct (IH (pls0 ++ [(s, pq)]) blk') as (blk2 & pls & E2 & F2); [intros; apply HI; right; auto|].
        exists blk2, ((s, pq) :: pls). rewrite E2, <- app_assoc. split; [reflexivity|constructor; auto]. }
    destruct (GEN ps [] None (fun q H => H)) as (blk & pls & E & F2).
    match type of E with foldM _ _ ?a = _ => change (exists pls, (do r <- foldM step ps a; Ok (snd r)) = Ok (placed pls) /\ Forall2 good ps pls) end.
    rewrite E. cbn [bind snd app]. exists pls. auto. }
  destruct ST as (pls & E & F2). exists (placed pls). split; [exact E|]. clear E.
  assert (INJ : forall x y j j', same_stock x j j' -> same_stock y j j' -> x = y).
  { intros x y j j' [[-> ->]|[-> ->]] [[A B]|[A B]]; lia. }
  assert (NP := pair9_nodup td ND).
  assert (UQ : forall s p s' p' x, In (s, p) pls -> In (s', p') pls -> same_stock x (fst p) (snd p) -> same_stock x (fst p') (snd p') ->
     s = s' /\ p = p').
  { clear -F2 NP INJ. induction F2 as [|[x y] [s0 p0] ps pls [G _] F2 IH]; intros s p s' p' z H H' S1 S2; [destruct H|].
    cbn [fst snd map] in *. inversion NP; subst.
    assert (OTH : forall s q, In (s, q) pls -> same_stock z (fst q) (snd q) -> In z (map fst ps)).
    { clear -F2 INJ. intros s q H S. induction F2 as [|a [b c] ps pls [G _] F2 IH]; [destruct H|]. destruct H as [H|H].
      - inversion H; subst. left. cbn [fst snd] in G. eapply INJ; eauto.
      - right. auto. }
    destruct H as [H|H], H' as [H'|H'].
    - inversion H; inversion H'; subst. auto.
    - inversion H; subst. exfalso. apply H2. rewrite (INJ x z _ _ G S1). eapply OTH; eauto.
    - inversion H'; subst. exfalso. apply H2. rewrite (INJ x z _ _ G S2). eapply OTH; eauto.
    - eapply IH; eauto. }
  assert (GD : forall s p, In (s, p) pls -> exists pr, In pr (get_trains_pair9 td) /\ good pr (s, p)).
  { clear -F2. intros s p H. induction F2; [destruct H|]. destruct H as [->|H]; [eauto with datatypes|].
    destruct (IHF2 H) as (pr & A & B). exists pr. split; auto. right. exact A. }
  assert (IN : forall s l p, dget s (placed pls) = Some l -> (In p l <-> In (s, p) pls)).
  { intros s l p D. assert (X := placed_get pls s). rewrite D in X. destruct X as [_ ->].
    rewrite in_map_iff. split.
    - intros ([s' p'] & Ep & H). apply filter_In in H as [H Es]. cbn [fst snd] in *. apply eqb_eq in Es. subst. exact H.
    - intros H. exists (s, p). split; auto. apply filter_In. split; auto. apply eqb_refl. }
  split; [|split].
  - intros s l D. assert (X := placed_get pls s). rewrite D in X. destruct X as [Nl El]. split; auto. rewrite El.
    assert (NDP : NoDup (map snd pls)).
    { clear -F2 NP INJ. induction F2 as [|[x y] [s0 p0] ps pls [G _] F2 IH]; [constructor|].
      cbn [fst snd map] in *. inversion NP; subst. constructor; auto. rewrite in_map_iff. intros ([s q] & Eq & H). simpl in Eq. subst q.
      apply H1. clear -F2 INJ G H. induction F2 as [|a [b c] ps pls [G' _] F2 IH]; [destruct H|]. destruct H as [H|H].
      - inversion H; subst. left. cbn [fst snd] in G'. eapply INJ; eauto.
      - right. auto. }
    clear -NDP. induction pls as [|[s' p'] pls IH]; simpl; [constructor|]. simpl in NDP. inversion NDP; subst.
    destruct (eqb s' s); simpl; auto. constructor; auto. intros X. apply H1. apply in_map_iff in X as (q & Eq & X).
    apply filter_In in X as [X _]. apply in_map_iff. exists q. auto.
  - intros s l j j' D H. apply (IN s l _ D) in H. apply GD in H as (pr & _ & G1 & G2). cbn [fst snd] in *. split; eauto.
  - intros x Kx Ky. assert (P : In (x, (x * 10 + 9)%Z) (get_trains_pair9 td)) by (apply pair9_in; auto).
    assert (X : exists s j j', In (s, (j, j')) pls /\ same_stock x j j').
    { clear -F2 P. induction F2 as [|a [s [j j']] ps pls [G _] F2 IH]; [destruct P|]. destruct P as [->|P].
      - exists s, j, j'. split; [left; reflexivity|exact G].
      - destruct (IH P) as (s1 & k & k' & A & B). exists s1, k, k'. split; auto. right. exact A. }
    destruct X as (s & j & j' & I & SS).
    destruct (dget s (placed pls)) as [l|] eqn:D.
    + exists s, l, j, j'. split; auto. split; [apply (IN s l _ D); exact I|]. split; auto.
      intros s2 l2 k k' D2 I2 S2. apply (IN s2 l2 _ D2) in I2.
      destruct (UQ s (j, j') s2 (k, k') x I I2 SS S2) as [-> Ep]. inversion Ep. auto.
    + exfalso. assert (X := placed_get pls s). rewrite D in X.
      assert (Y : In (s, (j, j')) (filter (fun sp => eqb (fst sp) s) pls)) by (apply filter_In; split; auto; apply eqb_refl).
      rewrite X in Y. destruct Y.
Qed.
Print Assumptions C43_placed_partial.

(** Train 11 ends in C, where 119 starts; trains 12 and 129 do not meet, and get the station of
    the pair before them. *)
Definition turn_td : train_dict :=
  [(11%Z, ([], [at_ "a1" (Some "A"); at_ "x" None; at_ "c1" (Some "C")]));
   (119%Z, ([], [at_ "c1" (Some "C"); at_ "x" None; at_ "a1" (Some "A"); at_ "w" None]));
   (12%Z, ([], [at_ "a2" (Some "A"); at_ "y" None; at_ "b1" (Some "B")]));
   (129%Z, ([], [at_ "b2" (Some "B"); at_ "y" None; at_ "a2" (Some "A"); at_ "w" None]))].

Example C43_case :
  get_jround (firstn 2 turn_td) abc_st = Ok [("C", [(11%Z, 119%Z)])] /\
  NoDup (dkeys (firstn 2 turn_td)) /\ stations_apart abc_st /\
  (forall x, In x (dkeys (firstn 2 turn_td)) -> In (x * 10 + 9)%Z (dkeys (firstn 2 turn_td)) ->
     exists j j' b, same_stock x j j' /\ meets (firstn 2 turn_td) j j' b) /\
  (forall x j j' b, same_stock x j j' -> meets (firstn 2 turn_td) j j' b -> exists s, in_station abc_st b s).
Proof.
  split; [vm_compute; reflexivity|]. split; [repeat constructor; simpl; intuition discriminate|].
  split; [apply abc_apart|]. split.
  - intros x [<-|[<-|[]]] H; [|simpl in H; intuition discriminate].
    exists 11%Z, 119%Z, "c1". split; [left; auto|]. eexists. eexists.
    split; [eexists; reflexivity|]. split; [eexists; reflexivity|]. split.
    + exists [at_ "a1" (Some "A"); at_ "x" None], (at_ "c1" (Some "C")). auto.
    + exists (at_ "c1" (Some "C")). eauto.
  - intros x j j' b SS (tt & tt' & (i & R) & (i' & R') & EN & SN). apply ends_path in EN. apply starts_path in SN.
    exists "C". apply abc_station.
    assert (J : (j = 11 /\ j' = 119)%Z \/ (j = 119 /\ j' = 11)%Z \/ (j = j')%Z).
    { simpl in R, R'. repeat match type of R with (if ?c then _ else _) = _ => destruct c end; try discriminate;
      repeat match type of R' with (if ?c then _ else _) = _ => destruct c end; try discriminate; lia. }
    destruct J as [[-> ->]|[[-> ->]| ->]].
    + simpl in R. inversion R; subst. cbn in EN. inversion EN. auto.
    + simpl in R, R'. inversion R; inversion R'; subst. cbn in EN, SN. congruence.
    + exfalso. destruct SS as [[A B]|[A B]]; simpl in R; repeat match type of R with (if ?c then _ else _) = _ => destruct c end; try discriminate; lia.
Qed.

Theorem C43_stale_refuted : exists td st d,
  NoDup (dkeys td) /\ stations_apart st /\ all_annotated st td /\ all_visit_once td /\
  get_jround td st = Ok d /\
  exists s l j j', dget s d = Some l /\ In (j, j') l /\
    forall tt tt', runs td j tt -> runs td j' tt' -> ~ passes tt s /\ ~ passes tt' s.
Proof.
  exists turn_td, abc_st. eexists. split; [repeat constructor; simpl; intuition discriminate|].
  split; [apply abc_apart|]. split; [|split].
  - intros t info tt H r s Hr. simpl in H. rewrite abc_station.
    repeat (destruct H as [H|H]; [inversion H; subst; clear H|]); try tauto;
    simpl in Hr; repeat (destruct Hr as [Hr|Hr]; [subst r; cbn; intuition (try congruence)|]); try tauto.
  - intros t tt (i & H). apply visits_once_nodup. unfold turn_td in H. simpl in H.
    repeat match type of H with (if ?c then _ else _) = _ => destruct c; [inversion H; subst; clear H|] end;
      try discriminate; repeat constructor; simpl; intuition discriminate.
  - split; [vm_compute; reflexivity|].
    exists "C", [(11, 119); (12, 129)]%Z, 12%Z, 129%Z. split; [reflexivity|]. split; [right; left; reflexivity|].
    intros tt tt' (i & R) (i' & R'). simpl in R, R'. inversion R; inversion R'; subst.
    split; intros (r & Hr & Er); simpl in Hr; repeat (destruct Hr as [<-|Hr]; [discriminate|]); destruct Hr.
Qed.
Print Assumptions C43_stale_refuted.
