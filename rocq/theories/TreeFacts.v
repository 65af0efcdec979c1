(** * TreeFacts: nested dictionaries and the order-variable store *)

From Coq Require Import List String ZArith QArith Bool Arith Lia.
From Verif Require Import Base Pulp Helpers LinearSolver BaseFacts Spec.
Import ListNotations.
Open Scope string_scope.
Open Scope list_scope.

(** Leaf under a path of keys. *)
Fixpoint tpath (p : list pv) (t : tree) : option lpvar :=
  match p, t with
  | [], TLeaf v => Some v
  | k :: p', TNode d => match dget k d with Some c => tpath p' c | None => None end
  | _, _ => None
  end.

(** All leaves are at depth [n]. *)
Fixpoint udepth (n : nat) (t : tree) : Prop :=
  match n, t with
  | O, TLeaf _ => True
  | S m, TNode d => Forall (fun kv => udepth m (snd kv)) d
  | _, _ => False
  end.

Lemma udepth_child n d k c : udepth (S n) (TNode d) -> dget k d = Some c -> udepth n c.
Proof.
  simpl. intros HF Hg. rewrite Forall_forall in HF. apply dget_in in Hg. exact (HF _ Hg).
Qed.

Lemma Forall_dset {V} (P : V -> Prop) k v (d : dict pv V) :
  Forall (fun kv => P (snd kv)) d -> P v -> Forall (fun kv => P (snd kv)) (dset k v d).
Proof.
  intros HF Hv. induction d as [|[a b] d IH]; simpl.
  - constructor; auto.
  - inversion HF; subst. destruct (eq_dec k a); constructor; auto.
Qed.

Lemma udepth_single p v : udepth (List.length p) (single p v).
Proof.
  induction p as [|k p IH]; [exact I|].
  simpl. constructor; [exact IH|constructor].
Qed.

Lemma tpath_single p v q :
  List.length q = List.length p -> tpath q (single p v) = if eq_dec q p then Some v else None.
Proof.
  revert q; induction p as [|k p IH]; intros [|k' q] Hl; simpl in Hl; try discriminate.
  - simpl. destruct (eq_dec [] []); congruence.
  - simpl. destruct (eq_dec k' k) as [->|Hk].
    + rewrite IH by lia. destruct (eq_dec q p), (eq_dec (k :: q) (k :: p)); congruence.
    + destruct (eq_dec (k' :: q) (k :: p)); congruence.
Qed.

Lemma update_single_eq k p v e1 :
  update_dictofdicts (TNode e1) (single (k :: p) v) =
  match dget k e1 with
  | Some c => do c' <- update_dictofdicts c (single p v); Ok (TNode (dset k c' e1))
  | None => Ok (TNode (dset k (single p v) e1))
  end.
Proof. simpl. destruct (dget k e1); reflexivity. Qed.

Theorem update_single_new p v t :
  udepth (List.length p) t -> tpath p t = None ->
  exists t', update_dictofdicts t (single p v) = Ok t' /\
    udepth (List.length p) t' /\
    forall q, List.length q = List.length p ->
      tpath q t' = if eq_dec q p then Some v else tpath q t.
Proof.
  revert t; induction p as [|k p IH]; intros t Hd Hn.
  - destruct t; simpl in *; [discriminate|tauto].
  - destruct t as [w|e1]; [simpl in Hd; tauto|].
    rewrite update_single_eq. simpl in Hn. destruct (dget k e1) as [c|] eqn:Eg.
    + assert (Hc : udepth (List.length p) c) by (eapply udepth_child; eauto).
      destruct (IH c Hc Hn) as (c' & Hu & Hd' & Hp). rewrite Hu. simpl bind.
      exists (TNode (dset k c' e1)). split; [reflexivity|]. split.
      * simpl. apply Forall_dset; auto.
      * intros [|k' q] Hl; simpl in Hl; [discriminate|]. simpl. rewrite dget_dset.
        destruct (eq_dec k' k) as [->|Hk].
        -- rewrite Hp by lia. rewrite Eg.
           destruct (eq_dec q p), (eq_dec (k :: q) (k :: p)); congruence.
        -- destruct (eq_dec (k' :: q) (k :: p)); congruence.
    + exists (TNode (dset k (single p v) e1)). split; [reflexivity|]. split.
      * simpl. apply Forall_dset; auto. apply udepth_single.
      * intros [|k' q] Hl; simpl in Hl; [discriminate|]. simpl. rewrite dget_dset.
        destruct (eq_dec k' k) as [->|Hk].
        -- rewrite tpath_single by lia. rewrite Eg.
           destruct (eq_dec q p), (eq_dec (k :: q) (k :: p)); congruence.
        -- destruct (eq_dec (k' :: q) (k :: p)); congruence.
Qed.

Theorem update_single_old p v t w :
  tpath p t = Some w -> update_dictofdicts t (single p v) = Err AttributeError.
Proof.
  revert t; induction p as [|k p IH]; intros t Hn.
  - reflexivity.
  - destruct t as [u|e1]; [simpl in Hn; discriminate|].
    rewrite update_single_eq. simpl in Hn. destruct (dget k e1) as [c|] eqn:Eg; [|discriminate].
    rewrite (IH c Hn). reflexivity.
Qed.

(** ** Lookups along paths of length two and four *)

Lemma get2_tpath d j s v : get2 d j s = Ok v <-> tpath [j; s] d = Some v.
Proof.
  unfold get2, tlookup. destruct d as [w|e]; simpl; [split; discriminate|].
  unfold dlookup. destruct (dget j e) as [t1|]; simpl; [|split; discriminate].
  destruct t1 as [w|e1]; simpl; [split; discriminate|].
  destruct (dget s e1) as [t2|]; simpl; [|split; discriminate].
  destruct t2; simpl; split; congruence.
Qed.

Lemma get4_tpath y a b c d v : get4 y a b c d = Ok v <-> tpath [a; b; c; d] y = Some v.
Proof.
  unfold get4, tlookup. destruct y as [w|e]; simpl; [split; discriminate|].
  unfold dlookup. destruct (dget a e) as [t1|]; simpl; [|split; discriminate].
  destruct t1 as [w|e1]; simpl; [split; discriminate|].
  destruct (dget b e1) as [t2|]; simpl; [|split; discriminate].
  destruct t2 as [w|e2]; simpl; [split; discriminate|].
  destruct (dget c e2) as [t3|]; simpl; [|split; discriminate].
  destruct t3 as [w|e3]; simpl; [split; discriminate|].
  destruct (dget d e3) as [t4|]; simpl; [|split; discriminate].
  destruct t4; simpl; split; congruence.
Qed.

Lemma udepth4_leaf y a b c d :
  udepth 4 y -> check_order_var_4arg y a b c d = true -> exists v, tpath [a; b; c; d] y = Some v.
Proof.
  intros Hd Hc. unfold check_order_var_4arg, tlookup in Hc.
  destruct y as [w|e]; [simpl in Hd; tauto|]. unfold dlookup in Hc. simpl tpath.
  destruct (dget a e) as [t1|] eqn:E1; [|discriminate].
  pose proof (udepth_child _ _ _ _ Hd E1) as H1. destruct t1 as [w|e1]; [simpl in H1; tauto|].
  destruct (dget b e1) as [t2|] eqn:E2; [|discriminate].
  pose proof (udepth_child _ _ _ _ H1 E2) as H2. destruct t2 as [w|e2]; [simpl in H2; tauto|].
  destruct (dget c e2) as [t3|] eqn:E3; [|discriminate].
  pose proof (udepth_child _ _ _ _ H2 E3) as H3. destruct t3 as [w|e3]; [simpl in H3; tauto|].
  unfold tmem, dmem in Hc. destruct (dget d e3) as [t4|] eqn:E4; [|discriminate].
  pose proof (udepth_child _ _ _ _ H3 E4) as H4. destruct t4 as [w|e4]; [|simpl in H4; tauto].
  simpl. eauto.
Qed.

Lemma tpath_check4 y a b c d v :
  tpath [a; b; c; d] y = Some v -> check_order_var_4arg y a b c d = true.
Proof.
  unfold check_order_var_4arg, tlookup, dlookup. destruct y as [w|e]; simpl; [discriminate|].
  destruct (dget a e) as [[w|e1]|]; simpl; try discriminate.
  destruct (dget b e1) as [[w|e2]|]; simpl; try discriminate.
  destruct (dget c e2) as [[w|e3]|]; simpl; try discriminate.
  unfold dmem. destruct (dget d e3); simpl; try discriminate. reflexivity.
Qed.

Lemma check4_false y a b c d :
  udepth 4 y -> check_order_var_4arg y a b c d = false -> tpath [a; b; c; d] y = None.
Proof.
  intros Hd Hc. destruct (tpath [a; b; c; d] y) eqn:E; auto.
  apply tpath_check4 in E. congruence.
Qed.

(** ** Invariant of the order-variable store *)

Definition present (y : tree) (p : list pv) : Prop := exists v, tpath p y = Some v.

(** Paths that denote the two orientations of one decision. *)
Inductive mirror : list pv -> list pv -> Prop :=
| mirror3 j jp s : j <> jp ->
    mirror [j; jp; one_station; s] [jp; j; one_station; s]
| mirror4 j jp s sp : j <> in_ -> jp <> in_ -> s <> one_station -> sp <> one_station ->
    (j <> jp \/ s <> sp) -> mirror [j; jp; s; sp] [jp; j; sp; s]
| mirror_in j jp s : j <> jp -> j <> one_station -> jp <> one_station ->
    mirror [in_; j; jp; s] [in_; jp; j; s].

Lemma mirror_sym p q : mirror p q -> mirror q p.
Proof. intros H; inversion H; subst; constructor; auto. destruct H4; auto. Qed.

Lemma mirror_irrefl p : ~ mirror p p.
Proof.
  intros H; inversion H; subst; try congruence.
  match goal with Hd : _ \/ _ |- _ => destruct Hd; congruence end.
Qed.

Record store_ok (y : tree) : Prop := {
  so_depth : udepth 4 y;
  so_var : forall p v, tpath p y = Some v -> v = y_var p \/ v = z_var p;
  so_excl : forall p q, mirror p q -> present y p -> present y q -> False }.

Lemma store_ok_empty : store_ok (TNode []).
Proof.
  split.
  - simpl; constructor.
  - intros [|k p] v; simpl; discriminate.
  - intros p q _ [v Hp] _. destruct p; simpl in Hp; discriminate.
Qed.

Lemma tpath_length n y p v : udepth n y -> tpath p y = Some v -> List.length p = n.
Proof.
  revert y p; induction n as [|n IH]; intros [w|d] p Hd Hp; simpl in Hd; try tauto.
  - destruct p; simpl in Hp; [reflexivity|discriminate].
  - destruct p as [|k p]; simpl in Hp; [discriminate|]. simpl. f_equal.
    destruct (dget k d) as [c|] eqn:E; [|discriminate].
    eapply IH; [|exact Hp]. rewrite Forall_forall in Hd. apply dget_in in E. exact (Hd _ E).
Qed.

(** Adding a path all of whose mirrors are absent keeps the invariant. *)
Lemma store_add y p v :
  store_ok y -> List.length p = 4%nat -> tpath p y = None -> (v = y_var p \/ v = z_var p) ->
  (forall q, mirror p q -> tpath q y = None) ->
  exists y', update_dictofdicts y (single p v) = Ok y' /\ store_ok y' /\
    (forall q, List.length q = 4%nat -> tpath q y' = if eq_dec q p then Some v else tpath q y).
Proof.
  intros [Hd Hv Hx] Hl Hn Hvp Hm.
  destruct (update_single_new p v y) as (y' & Hu & Hd' & Hp).
  { rewrite Hl; exact Hd. } { exact Hn. }
  rewrite Hl in Hd', Hp. exists y'. split; [exact Hu|]. split; [|exact Hp].
  split; [exact Hd'| |].
  - intros q w Hq. pose proof (tpath_length _ _ _ _ Hd' Hq) as Hlq.
    rewrite Hp in Hq by exact Hlq. destruct (eq_dec q p); [|eauto].
    inversion Hq; subst; auto.
  - intros q r Hqr [w1 H1] [w2 H2].
    pose proof (tpath_length _ _ _ _ Hd' H1) as L1. pose proof (tpath_length _ _ _ _ Hd' H2) as L2.
    rewrite Hp in H1, H2 by assumption.
    destruct (eq_dec q p) as [->|Hqp]; destruct (eq_dec r p) as [->|Hrp].
    + exact (mirror_irrefl _ Hqr).
    + rewrite (Hm _ Hqr) in H2; discriminate.
    + rewrite (Hm _ (mirror_sym _ _ Hqr)) in H1; discriminate.
    + eapply Hx; [exact Hqr| |]; red; eauto.
Qed.

Definition train_name_ok (j : pv) : Prop := j <> in_ /\ j <> one_station.
Definition station_name_ok (s : pv) : Prop := s <> one_station.

(** What one update guarantees: invariant kept, entries kept, one orientation present. *)
Definition store_step (y y' : tree) (p q : list pv) : Prop :=
  store_ok y' /\ (forall r v, tpath r y = Some v -> tpath r y' = Some v) /\
  (present y' p \/ present y' q).

Lemma store_step_intro y p q v :
  store_ok y -> List.length p = 4%nat ->
  (v = y_var p \/ v = z_var p) ->
  tpath p y = None -> tpath q y = None ->
  (forall r, mirror p r -> r = q) ->
  exists y', update_dictofdicts y (single p v) = Ok y' /\ store_step y y' p q.
Proof.
  intros Hy Hl Hv Hp Hq Hm.
  destruct (store_add y p v) as (y' & Hu & Hy' & Ht); auto.
  { intros r Hr. apply Hm in Hr; subst; exact Hq. }
  exists y'. split; [exact Hu|]. split; [exact Hy'|]. split.
  - intros r w Hr. pose proof (tpath_length _ _ _ _ (so_depth _ Hy) Hr) as Lr.
    rewrite Ht by exact Lr. destruct (eq_dec r p); [subst; congruence|exact Hr].
  - left. exists v. rewrite Ht by exact Hl. destruct (eq_dec p p); congruence.
Qed.

Lemma update_y3_ok y j jp s :
  store_ok y -> train_name_ok j -> train_name_ok jp ->
  exists y', update_y3 y j jp s = Ok y' /\
    store_step y y' [j; jp; one_station; s] [jp; j; one_station; s].
Proof.
  intros Hy [Hj1 Hj2] [Hjp1 Hjp2]. unfold update_y3, check_order_var_3arg.
  destruct (check_order_var_4arg y j jp one_station s) eqn:E1; cbn [orb].
  { exists y; split; auto. split; auto. split; auto. left.
    eapply udepth4_leaf; eauto using so_depth. }
  destruct (check_order_var_4arg y jp j one_station s) eqn:E2; cbn [orb].
  { exists y; split; auto. split; auto. split; auto. right.
    eapply udepth4_leaf; eauto using so_depth. }
  apply store_step_intro; auto using check4_false, so_depth.
  intros r Hr. inversion Hr; subst; try congruence; try (exfalso; congruence).
Qed.

Lemma update_y4_ok y j jp s sp :
  store_ok y -> train_name_ok j -> train_name_ok jp -> station_name_ok s -> station_name_ok sp ->
  exists y', update_y4 y j jp s sp = Ok y' /\
    store_step y y' [j; jp; s; sp] [jp; j; sp; s].
Proof.
  intros Hy [Hj1 Hj2] [Hjp1 Hjp2] Hs Hsp. unfold update_y4, station_name_ok in *.
  destruct (check_order_var_4arg y j jp s sp) eqn:E1; cbn [orb].
  { exists y; split; auto. split; auto. split; auto. left.
    eapply udepth4_leaf; eauto using so_depth. }
  destruct (check_order_var_4arg y jp j sp s) eqn:E2; cbn [orb].
  { exists y; split; auto. split; auto. split; auto. right.
    eapply udepth4_leaf; eauto using so_depth. }
  apply store_step_intro; auto using check4_false, so_depth.
  intros r Hr. inversion Hr; subst; try congruence; try (exfalso; congruence).
Qed.

Lemma update_y4_in_ok y j jp s :
  store_ok y -> train_name_ok j -> train_name_ok jp ->
  exists y', update_y4_in y in_ j jp s = Ok y' /\
    store_step y y' [in_; j; jp; s] [in_; jp; j; s].
Proof.
  intros Hy [Hj1 Hj2] [Hjp1 Hjp2]. unfold update_y4_in.
  destruct (check_order_var_4arg y in_ j jp s) eqn:E1; cbn [orb].
  { exists y; split; auto. split; auto. split; auto. left.
    eapply udepth4_leaf; eauto using so_depth. }
  destruct (check_order_var_4arg y in_ jp j s) eqn:E2; cbn [orb].
  { exists y; split; auto. split; auto. split; auto. right.
    eapply udepth4_leaf; eauto using so_depth. }
  apply store_step_intro; auto using check4_false, so_depth.
  intros r Hr. inversion Hr; subst; try congruence; try (exfalso; congruence).
Qed.
